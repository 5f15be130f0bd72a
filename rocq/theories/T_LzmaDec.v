(** C50: the bundled LZMA decoder. *)
From Verif Require Import Base InflateSpec LzmaFormatSpec P_LzmaFormat P_LzmaFormat2 M_LzmaDec P_LzmaDec1 P_LzmaDec2 P_LzmaDec3 P_LzmaDec4 P_LzmaDec5 P_LzmaDec6 P_LzmaDec7 P_LzmaDec8 P_LzmaDec9 P_LzmaDec10 P_LzmaDec11 P_LzmaDec12 P_LzmaDec13.

(** the properties of the format, from those of the decoder *)
Definition format (pr : props) : lzprops := mkLzprops (p_lc pr) (p_lp pr) (p_pb pr) (p_dicSize pr).
Lemma format_px pr : format pr = px pr. Proof. reflexivity. Qed.
(** ** The use of a decoder: any sequence of calls that were successful.  [r]: the input that was consumed since the last
    initialisation, [o]: the output that was delivered. *)
Inductive session (pr : props) : dec -> list Z -> list Z -> Prop :=
| S_new : session pr (decoder pr) [] []
| S_init p r o : session pr p r o -> session pr (Init p) [] []
| S_call p r o space src fin p' n y st : session pr p r o -> 0 <= space -> DecodeToBuf p space src fin = Ret (p', n, y, true, st) ->
    session pr p' (r ++ firstn (Z.to_nat n) src) (o ++ y).

Lemma used_firstn (u v : list Z) n : n = 0 + zlen u -> firstn (Z.to_nat n) (u ++ v) = u.
Proof. intros ->. unfold zlen. rewrite Z.add_0_l, Nat2Z.id, firstn_app, firstn_all, Nat.sub_diag. cbn. apply app_nil_r. Qed.
Lemma init_inv pr p r o : INV pr p r o -> INV pr (Init p) [] [].
Proof.
  intros H. pose proof (inv_ring _ _ _ _ H) as [R1 R2 R3]. assert (d_prop p = pr) as Ep by (destruct H; assumption).
  apply I_Pre; try reflexivity; [exact Ep|]. cbn. constructor; [exact R1|lia|]. intros d L. change (zlen (@nil Z)) with 0 in L. lia.
Qed.
Lemma session_inv pr p r o : lzprops_ok (px pr) -> session pr p r o -> INV pr p r o.
Proof.
  intros Hp H. induction H as [|p r o H IH|p r o space src fin p' n y st H IH Hs E].
  - apply decoder_inv, Hp.
  - apply (init_inv _ _ _ _ IH).
  - destruct (DecodeToBuf_ok pr fin p r o space src Hp IH Hs) as (x & Ex & HR). rewrite E in Ex. injection Ex as <-.
    destruct HR as (u & rest & w & -> & En & -> & _ & HI & _). rewrite (used_firstn _ _ _ En). exact HI.
Qed.
Lemma call pr p r o space src fin p' n y ok st : lzprops_ok (px pr) -> session pr p r o -> 0 <= space -> DecodeToBuf p space src fin = Ret (p', n, y, ok, st) ->
  exists rest, src = firstn (Z.to_nat n) src ++ rest /\ BRESULT pr fin space r src o 0 [] (p', n, y, ok, st) /\ INV pr p r o.
Proof.
  intros Hp H Hs E. pose proof (session_inv _ _ _ _ Hp H) as HI. destruct (DecodeToBuf_ok pr fin p r o space src Hp HI Hs) as (x & Ex & HR). rewrite E in Ex. injection Ex as <-.
  pose proof HR as (u & rest & w & Es & En & _). exists rest. split; [|split; [exact HR|exact HI]]. rewrite Es. rewrite (used_firstn _ _ _ En). reflexivity.
Qed.

(** ** Every call returns, with any input: no byte outside of the arrays is read or written, no byte that was not written is read, and the loops end *)
Theorem C50_call_returns pr p r o space src fin : lzprops_ok (format pr) -> session pr p r o -> 0 <= space ->
  exists p' n y ok st, DecodeToBuf p space src fin = Ret (p', n, y, ok, st) /\ 0 <= n <= zlen src /\ zlen y <= space.
Proof.
  rewrite format_px. intros Hp H Hs. destruct (DecodeToBuf_ok pr fin p r o space src Hp (session_inv _ _ _ _ Hp H) Hs) as (((((p' & n) & y) & ok) & st) & E & HR).
  exists p', n, y, ok, st. split; [exact E|]. destruct HR as (u & rest & w & -> & En & -> & Hl & _). rewrite zlen_app. pose proof (zlen_nonneg u). pose proof (zlen_nonneg rest). split; [lia|exact Hl].
Qed.
(** ** What is delivered is a beginning of what the format says, whatever the input and however it is split *)
Theorem C50_output_prefix pr p r o space src fin p' n y ok st : lzprops_ok (format pr) -> session pr p r o -> 0 <= space -> DecodeToBuf p space src fin = Ret (p', n, y, ok, st) ->
  prefix (o ++ y) (lz_output (format pr) (r ++ if ok then firstn (Z.to_nat n) src else src)).
Proof.
  rewrite format_px. intros Hp H Hs E. destruct (call _ _ _ _ _ _ _ _ _ _ _ _ Hp H Hs E) as (_ & _ & HR & _). destruct HR as (u & rest & w & -> & En & -> & _ & HR). rewrite (used_firstn _ _ _ En). cbn [app] in *. apply reach_output; [exact Hp|]. destruct ok.
  - destruct HR as (HI & _). pose proof (inv_reach _ _ _ _ [] Hp HI) as Q. rewrite app_nil_r in Q. exact Q.
  - exact (proj1 HR).
Qed.
Lemma starving_output p r o : lzprops_ok p -> lz_starving p r o -> lz_output p r = o.
Proof.
  intros Hp [(L & ->)|(z0 & z & E & H & N & <-)].
  - unfold lz_output. destruct (start r) as [z|] eqn:E; [|reflexivity]. pose proof (start_len p _ _ Hp E). pose proof (zlen_nonneg (k_in (z_coder z))). lia.
  - destruct (output_steps _ _ _ _ Hp E H) as (y & Hy & ->). rewrite (steps_end _ _ _ Hy) by (intros q; congruence). reflexivity.
Qed.
(** no unmarked data ends in a state of which the decoder says that it does not *)
Lemma flow_unmarked_end pr p r o z0 z s c t : lzprops_ok (px pr) -> Flow pr p r o z0 z -> r ++ s = c ++ t -> lz_unmarked_data (px pr) c o -> d_remain p = 0 /\ d_code p = 0.
Proof.
  intros Hp [F1 F2 F3 F4 F5 F6 F7 F8 _] E (zc & y & C1 & C2 & C3 & C4 & C5). apply (start_more _ s) in F1. apply (start_more _ t) in C1. rewrite E in F1. assert (morez zc t = morez z0 s) as Q by congruence.
  pose proof (steps_more _ _ _ s F2) as S1. pose proof (steps_more _ _ _ t C2) as S2. rewrite Q in S2. destruct F7 as (w & W & L).
  destruct (Z.eq_dec (d_remain p) 0) as [Hr|Hr].
  - split; [exact Hr|]. assert (morez z s = morez y t) as Qz. { apply (states_same (px pr) (c ++ t) (morez z0 s)); try assumption. cbn [morez z_out]. rewrite W, C3, zlen_app. lia. }
    apply (f_equal (fun z => k_code (z_coder z))) in Qz. cbn in Qz. congruence.
  - exfalso. destruct (F8 Hr) as (y' & Y1 & Y2 & Y3). pose proof (steps_more _ _ _ s Y1) as Y1'. pose proof (step_more (px pr) y' s ltac:(congruence)) as Y2'. rewrite Y2 in Y2'. cbn [more_out] in Y2'.
    pose proof (states_between _ _ _ _ _ _ Hp F1 Y1' Y2' S2) as B. cbn [morez z_out] in B. rewrite C3, W, zlen_app in B. specialize (B Y3). lia.
Qed.
(** ** What the status means *)
Theorem C50_status pr p r o space src fin p' n y st : lzprops_ok (format pr) -> session pr p r o -> 0 <= space -> DecodeToBuf p space src fin = Ret (p', n, y, true, st) ->
  let r' := r ++ firstn (Z.to_nat n) src in
  match st with
  | SFinishedWithMark => lz_marked_data (format pr) r' (o ++ y)
  | SMaybeFinished => zlen y = space /\ exists c kept, r' = c ++ kept /\ zlen kept < 20 /\ lz_unmarked_data (format pr) c (o ++ y)
  | SNeedsMoreInput => n = zlen src /\ lz_starving (format pr) r' (o ++ y) /\ lz_output (format pr) r' = o ++ y
  | SNotFinished => zlen y = space /\ fin = false /\ (forall c kept, r' = c ++ kept -> ~ lz_unmarked_data (format pr) c (o ++ y))
  | SNotSpecified => False
  end.
Proof.
  rewrite format_px. intros Hp H Hs E. cbv zeta. destruct (call _ _ _ _ _ _ _ _ _ _ _ _ Hp H Hs E) as (_ & _ & HR & _). destruct HR as (u & rest & w & -> & En & -> & _ & HI & HR). rewrite (used_firstn _ _ _ En). cbn [app].
  pose proof (inv_view _ _ _ _ Hp HI) as V. destruct st.
  - exact HR.
  - destruct HR as (K1 & K2). destruct V as [(_ & _ & _ & Q)|(_ & [(z0 & z & F)|(z0 & z & k & F)])]; [lia|pose proof (fl_rem _ _ _ _ _ _ F); lia|]. destruct F as [F1 F2 F3 F4 F5 F6 F7]. exists z0, z, k. split; [exact F1|]. split; [exact F2|]. split; [exact F6|]. split; [exact F3|]. split; [exact F4|congruence].
  - destruct HR as (K1 & K2 & K3 & K4 & K5). split; [exact K1|]. split; [exact K2|]. intros c kept Ec U. destruct V as [(Q & _)|(_ & [(z0 & z & F)|(z0 & z & k & F)])]; [congruence| |pose proof (ov_rem _ _ _ _ _ _ _ F); lia].
    apply K5. apply (flow_unmarked_end _ _ _ _ _ _ [] c kept Hp F); [rewrite app_nil_r; exact Ec|exact U].
  - destruct HR as (K1 & K2 & _). subst rest. rewrite app_nil_r. split; [lia|]. split; [exact K2|]. apply starving_output; assumption.
  - destruct HR as (K1 & K2 & K3 & K4). split; [exact K1|]. destruct V as [(Q & _)|(_ & [(z0 & z & F)|(z0 & z & k & F)])]; [congruence| |pose proof (ov_rem _ _ _ _ _ _ _ F); lia].
    destruct (flow_unmarked _ _ _ _ _ _ Hp F K2 K3) as (c & Ec & U). exists c, (d_temp p'). split; [exact Ec|]. split; [exact (fl_temp _ _ _ _ _ _ F)|exact U].
Qed.
(** ** An error means that the data is wrong; or, if the caller said that the data ends there, that it does not *)
Theorem C50_error pr p r o space src fin p' n y st : lzprops_ok (format pr) -> session pr p r o -> 0 <= space -> DecodeToBuf p space src fin = Ret (p', n, y, false, st) ->
  lz_wrong (format pr) (r ++ src) (zlen o + space) \/ (fin = true /\ zlen y = space /\ lz_continues (format pr) (r ++ src) (o ++ y)).
Proof.
  rewrite format_px. intros Hp H Hs E. destruct (call _ _ _ _ _ _ _ _ _ _ _ _ Hp H Hs E) as (_ & _ & HR & _). destruct HR as (u & rest & w & -> & En & -> & _ & _ & HR). cbn [app]. exact HR.
Qed.
(** ** Complete data is decoded *)
Lemma marked_not_wrong p c x t m : lzprops_ok p -> lz_marked_data p c x -> ~ lz_wrong p (c ++ t) m.
Proof.
  intros Hp (zc & y & k & C1 & C2 & C3 & C4 & C5 & C6) [(_ & Q)|(z0 & z & Q1 & Q2 & Q3 & Q4)]; apply (start_more _ t) in C1; [congruence|]. assert (z0 = morez zc t) as -> by congruence.
  pose proof (steps_more _ _ _ t C2) as S2. pose proof (step_more p y t ltac:(congruence)) as S3. rewrite C4 in S3. cbn [more_out] in S3.
  assert (z = morez y t) as ->. { apply (steps_end p); [|intros q; congruence]. apply (states_last _ _ _ _ _ Hp C1 S2 Q2). intros q. destruct Q4 as [Q4|(k' & Q4 & _)]; congruence. }
  destruct Q4 as [Q4|(k' & Q4 & Q5)]; [congruence|]. assert (k' = more k t) as -> by congruence. exact (Q5 C6).
Qed.
Lemma marked_over pr p r o z0 z k s c x t : lzprops_ok (px pr) -> lz_marked_data (px pr) c x -> r ++ s = c ++ t -> Over pr p r o z0 z k -> r = c /\ o = x.
Proof.
  intros Hp (zc & y & k1 & C1 & C2 & C3 & C4 & C5 & C6) E [F1 F2 F3 F4 F5 F6 F7]. apply (start_more _ s) in F1. apply (start_more _ t) in C1. rewrite E in F1. assert (morez zc t = morez z0 s) as Q by congruence.
  pose proof (steps_more _ _ _ s F2) as S1. pose proof (steps_more _ _ _ t C2) as S2. rewrite Q in S2.
  pose proof (step_more (px pr) y t ltac:(congruence)) as M1. rewrite C4 in M1. pose proof (step_more (px pr) z s ltac:(congruence)) as M2. rewrite F3 in M2. cbn [more_out] in *.
  assert (morez z s = morez y t) as Qz. { apply (steps_end (px pr)); [|intros q; congruence]. apply (states_last _ _ _ _ _ Hp F1 S2 S1). intros q; congruence. }
  assert (more k s = more k1 t) as Qk by congruence. apply (f_equal k_in) in Qk. cbn in Qk. rewrite F4, C5 in Qk. cbn in Qk. subst t. split; [exact (app_inv_tail _ _ _ E)|].
  apply (f_equal z_out) in Qz. cbn in Qz. congruence.
Qed.
Theorem C50_marked_decoded pr p r o space src fin c x t : lzprops_ok (format pr) -> session pr p r o -> lz_marked_data (format pr) c x -> r ++ src = c ++ t -> zlen x - zlen o < space ->
  exists p' n y, DecodeToBuf p space src fin = Ret (p', n, y, true, SFinishedWithMark) /\ r ++ firstn (Z.to_nat n) src = c /\ o ++ y = x.
Proof.
  rewrite format_px. intros Hp H Hm Ec Hs. pose proof (session_inv _ _ _ _ Hp H) as HI0. pose proof (marked_output _ _ _ t Hp Hm) as HO. rewrite <- Ec in HO.
  assert (zlen o <= zlen x) as Lo. { destruct (reach_output _ _ _ Hp (inv_reach _ _ _ _ src Hp HI0)) as (q & Q). rewrite HO in Q. rewrite Q, zlen_app. pose proof (zlen_nonneg q). lia. }
  destruct (DecodeToBuf_ok pr fin p r o space src Hp HI0 ltac:(lia)) as (((((p' & n) & y) & ok) & st) & E & HR). exists p', n, y. rewrite E. destruct HR as (u & rest & w & Es & En & Ey & Hl & HR). cbn [app] in Ey. subst w src. rewrite (used_firstn _ _ _ En).
  rewrite app_assoc in Ec.
  assert (~ (zlen y = space /\ exists q, lz_output (px pr) (r ++ u ++ rest) = (o ++ y) ++ q)) as NO.
  { intros (Q & q & Eq). rewrite HO in Eq. apply (f_equal zlen) in Eq. rewrite !zlen_app in Eq. pose proof (zlen_nonneg q). lia. }
  destruct ok.
  - destruct HR as (HI & HR). pose proof (inv_view _ _ _ _ Hp HI) as V.
    assert (zlen y <> space) as NS. { intros Q. apply NO. split; [exact Q|]. pose proof (reach_output _ _ _ Hp (inv_reach _ _ _ _ rest Hp HI)) as RO. rewrite <- app_assoc in RO. exact RO. }
    destruct st.
    + contradiction.
    + destruct HR as (K1 & K2). destruct V as [(_ & _ & _ & Q)|(_ & [(z0 & z & F)|(z0 & z & k & F)])]; [lia|pose proof (fl_rem _ _ _ _ _ _ F); lia|]. split; [reflexivity|]. exact (marked_over _ _ _ _ _ _ _ _ _ _ _ Hp Hm Ec F).
    + destruct HR; contradiction.
    + exfalso. destruct HR as (-> & K2 & _). rewrite app_nil_r in Ec. destruct Hm as (zc & yy & k1 & C1 & C2 & C3 & C4 & C5 & C6). pose proof (start_len _ _ _ Hp C1) as L5. apply (start_more _ t) in C1. rewrite Ec in K2. destruct K2 as [(L & _)|(z0 & z & Q1 & Q2 & Q3 & Q4)].
      * rewrite zlen_app in L. pose proof (zlen_nonneg t). pose proof (zlen_nonneg (k_in (z_coder zc))). lia.
      * assert (z0 = morez zc t) as -> by congruence. pose proof (steps_more _ _ _ t C2) as S2. pose proof (step_more (px pr) yy t ltac:(congruence)) as S3. rewrite C4 in S3. cbn [more_out] in S3.
        assert (z = morez yy t) as ->. { apply (steps_end (px pr)); [|intros q; congruence]. apply (states_last _ _ _ _ _ Hp C1 S2 Q2). intros q; congruence. } congruence.
    + destruct HR; contradiction.
  - exfalso. rewrite app_assoc, Ec in HR. destruct HR as (HR1 & [HW|(_ & HW & _)]); [exact (marked_not_wrong _ _ _ _ _ Hp Hm HW)|]. apply NO. split; [exact HW|]. rewrite app_assoc, Ec. exact (reach_output _ _ _ Hp HR1).
Qed.
(** data without an end mark: its size is known, and the caller asks for exactly as much.  (Bytes behind the data may be consumed: [kept].) *)
Theorem C50_unmarked_decoded pr p r o space src fin c x t : lzprops_ok (format pr) -> session pr p r o -> 0 <= space -> lz_unmarked_data (format pr) c x -> r ++ src = c ++ t -> zlen o + space = zlen x ->
  exists p' n y kept, DecodeToBuf p space src fin = Ret (p', n, y, true, SMaybeFinished) /\ r ++ firstn (Z.to_nat n) src = c ++ kept /\ zlen kept < 20 /\ o ++ y = x.
Proof.
  rewrite format_px. intros Hp H Hs0 Hm Ec Hs. pose proof (session_inv _ _ _ _ Hp H) as HI0. pose proof (valid_output _ _ _ t Hp (or_introl Hm)) as HO. rewrite <- Ec in HO.
  destruct (DecodeToBuf_ok pr fin p r o space src Hp HI0 Hs0) as (((((p' & n) & y) & ok) & st) & E & HR). exists p', n, y. rewrite E. destruct HR as (u & rest & w & Es & En & Ey & Hl & HR). cbn [app] in Ey. subst w src. rewrite (used_firstn _ _ _ En).
  rewrite app_assoc in Ec.
  assert (prefix (o ++ y) (lz_output (px pr) (r ++ u ++ rest)) -> zlen y = space -> o ++ y = x) as EX.
  { intros (q1 & Q1) L. destruct HO as (q2 & Q2). rewrite Q1 in Q2. assert (zlen (o ++ y) = zlen x) as Lx by (rewrite zlen_app; lia). revert Q2 Lx. clear. generalize (o ++ y) as a. intros a. revert x. induction a as [|v a IH]; intros [|v' x] Q L; rewrite ?zlen_cons in L; try (pose proof (zlen_nonneg a); change (zlen (@nil Z)) with 0 in L; lia); try (pose proof (zlen_nonneg x); change (zlen (@nil Z)) with 0 in L; lia); [reflexivity|]. cbn in Q. injection Q as -> Q. f_equal. apply IH; [exact Q|lia]. }
  pose proof Hm as (zc & yc & C1 & C2 & C3 & C4 & C5). pose proof (start_len _ _ _ Hp C1) as L5. pose proof (zlen_nonneg (k_in (z_coder zc))) as L5'. apply (start_more _ t) in C1. apply (steps_more _ _ _ t) in C2. destruct (start_inv _ _ _ Hp C1) as (Ic & _). destruct (steps_inv _ _ _ Ic C2) as (Iy & _).
  assert (forall z, steps (px pr) (morez zc t) z -> (forall q, step (px pr) z <> Next q) -> step (px pr) z <> Starved -> zlen (z_out z) <= zlen x -> False) as NT.
  { intros z Z1 Z2 Z3 Z4. pose proof (states_last _ _ _ _ _ Hp C1 C2 Z1 Z2) as Q. apply (steps_same _ _ _ Iy) in Q; [|cbn [morez z_out]; rewrite C3; exact Z4]. subst z. destruct (zero_step _ _ Iy C5) as [Q|(q & Q)]; [exact (Z3 Q)|exact (Z2 _ Q)]. }
  destruct ok.
  - destruct HR as (HI & HR). pose proof (inv_view _ _ _ _ Hp HI) as V. pose proof (reach_output _ _ _ Hp (inv_reach _ _ _ _ rest Hp HI)) as RO. rewrite <- app_assoc in RO. specialize (EX RO).
    destruct st.
    + contradiction.
    + exfalso. destruct HR as (K1 & K2). destruct V as [(_ & _ & _ & Q)|(_ & [(z0 & z & F)|(z0 & z & k & F)])]; [lia|pose proof (fl_rem _ _ _ _ _ _ F); lia|]. destruct F as [F1 F2 F3 F4 F5 F6 F7].
      apply (start_more _ rest) in F1. rewrite Ec in F1. assert (morez z0 rest = morez zc t) as Q by congruence. pose proof (steps_more _ _ _ rest F2) as S2. rewrite Q in S2. pose proof (step_more (px pr) z rest ltac:(congruence)) as S3. rewrite F3 in S3. cbn [more_out] in S3.
      apply (NT _ S2); [intros q; congruence|congruence|]. cbn [morez z_out]. rewrite F6, zlen_app. lia.
    + exfalso. destruct HR as (K1 & K2 & K3 & K4 & K5). specialize (EX K1). destruct V as [(Q & _)|(_ & [(z0 & z & F)|(z0 & z & k & F)])]; [congruence| |pose proof (ov_rem _ _ _ _ _ _ _ F); lia].
      apply K5. apply (flow_unmarked_end _ _ _ _ _ _ rest c t Hp F); [exact Ec|rewrite EX; exact Hm].
    + exfalso. destruct HR as (-> & K2 & K3 & K4). rewrite app_nil_r in Ec. rewrite Ec in K2. destruct K2 as [(L & _)|(z0 & z & Q1 & Q2 & Q3 & Q4)]; [rewrite zlen_app in L; pose proof (zlen_nonneg t); lia|].
      assert (z0 = morez zc t) as -> by congruence. pose proof (states_last _ _ _ _ _ Hp C1 C2 Q2 ltac:(intros q; congruence)) as Q. pose proof (steps_out_le _ _ _ Iy Q) as L. cbn [morez z_out] in L. rewrite C3, Q4, zlen_app in L. specialize (EX ltac:(lia)). specialize (K4 ltac:(lia)).
      destruct V as [(_ & V & _)|(V1 & [(z0 & z1 & F)|(z0 & z1 & k & F)])]; [rewrite Ec, zlen_app in V; pose proof (zlen_nonneg t); lia| |pose proof (ov_rem _ _ _ _ _ _ _ F); lia].
      destruct (flow_unmarked_end _ _ _ _ _ _ [] c t Hp F) as (_ & B); [rewrite app_nil_r; exact Ec|rewrite EX; exact Hm|]. destruct K4; congruence.
    + destruct HR as (K1 & K2 & K3 & K4). specialize (EX K1). destruct V as [(Q & _)|(_ & [(z0 & z & F)|(z0 & z & k & F)])]; [congruence| |pose proof (ov_rem _ _ _ _ _ _ _ F); lia].
      exists (d_temp p'). split; [reflexivity|]. split; [|split; [exact (fl_temp _ _ _ _ _ _ F)|exact EX]].
      destruct F as [F1 F2 F3 F4 F5 F6 F7 F8 _]. destruct F7 as (w & W & Lw). apply (start_more _ rest) in F1. rewrite Ec in F1. assert (morez z0 rest = morez zc t) as Q by congruence. pose proof (steps_more _ _ _ rest F2) as S2. rewrite Q in S2.
      assert (morez z rest = morez yc t) as Qz. { apply (states_same _ _ _ _ _ Hp C1 S2 C2). cbn [morez z_out]. rewrite W, EX, C3, zlen_app. lia. }
      apply (f_equal (fun z => k_in (z_coder z))) in Qz. cbn in Qz. rewrite F4, C4 in Qz. cbn in Qz. subst t. rewrite app_assoc in Ec. exact (app_inv_tail _ _ _ Ec).
  - exfalso. pose proof (reach_output _ _ _ Hp (proj1 HR)) as RO. specialize (EX RO). destruct HR as (_ & HR). rewrite app_assoc, Ec in HR. destruct HR as [[(_ & Q)|(z0 & z & Q1 & Q2 & Q3 & Q4)]|(_ & HW & (z0 & z & yy & Q1 & Q2 & Q3 & Q4 & Q5))]; [congruence| |].
    + assert (z0 = morez zc t) as -> by congruence. apply (NT z Q2); [| |lia]; intros; destruct Q4 as [Q4|(k & Q4 & _)]; congruence.
    + assert (z0 = morez zc t) as -> by congruence. rewrite (EX HW) in *. destruct (Z.eq_dec (zlen (z_out z)) (zlen x)) as [L|L].
      * assert (z = morez yc t) as ->. { apply (states_same _ _ _ _ _ Hp C1 Q2 C2). cbn [morez z_out]. rewrite C3. exact L. } apply Q5. split; [exact C3|exact C5].
      * pose proof (states_between _ _ _ _ _ _ Hp C1 Q2 Q3 C2) as B. cbn [morez z_out] in B. rewrite C3 in B. lia.
Qed.
(** marked data of known size *)
Theorem C50_marked_exact pr p r o space src c x t : lzprops_ok (format pr) -> session pr p r o -> 0 <= space -> lz_marked_data (format pr) c x -> r ++ src = c ++ t -> zlen o + space = zlen x ->
  exists p' n y st, DecodeToBuf p space src true = Ret (p', n, y, true, st) /\ o ++ y = x /\ (st = SFinishedWithMark /\ r ++ firstn (Z.to_nat n) src = c \/ st = SMaybeFinished).
Proof.
  rewrite format_px. intros Hp H Hs0 Hm Ec Hs. pose proof (session_inv _ _ _ _ Hp H) as HI0. pose proof (marked_output _ _ _ t Hp Hm) as HO. rewrite <- Ec in HO.
  destruct (DecodeToBuf_ok pr true p r o space src Hp HI0 Hs0) as (((((p' & n) & y) & ok) & st) & E & HR). exists p', n, y, st. destruct HR as (u & rest & w & Es & En & Ey & Hl & HR). cbn [app] in Ey. subst w src. rewrite (used_firstn _ _ _ En).
  rewrite app_assoc in Ec.
  assert (prefix (o ++ y) (lz_output (px pr) (r ++ u ++ rest)) -> zlen y = space -> o ++ y = x) as EX.
  { rewrite HO. intros (q1 & Q1) L. assert (zlen x = zlen (o ++ y) + zlen q1) as Lx by (rewrite Q1; apply zlen_app). rewrite zlen_app in Lx. destruct q1; [rewrite app_nil_r in Q1; auto|]. rewrite zlen_cons in Lx. pose proof (zlen_nonneg q1). lia. }
  pose proof Hm as (zc & yc & k1 & C1 & C2 & C3 & C4 & C5 & C6). pose proof (start_len _ _ _ Hp C1) as L5. pose proof (zlen_nonneg (k_in (z_coder zc))) as L5'. apply (start_more _ t) in C1. apply (steps_more _ _ _ t) in C2. destruct (start_inv _ _ _ Hp C1) as (Ic & _). destruct (steps_inv _ _ _ Ic C2) as (Iy & _).
  pose proof (step_more (px pr) yc t ltac:(congruence)) as S3. rewrite C4 in S3. cbn [more_out] in S3.
  destruct ok.
  - rewrite E. destruct HR as (HI & HR). pose proof (inv_view _ _ _ _ Hp HI) as V. pose proof (reach_output _ _ _ Hp (inv_reach _ _ _ _ rest Hp HI)) as RO. rewrite <- app_assoc in RO. specialize (EX RO). split; [reflexivity|].
    destruct st.
    + contradiction.
    + destruct HR as (K1 & K2). destruct V as [(_ & _ & _ & Q)|(_ & [(z0 & z & F)|(z0 & z & k & F)])]; [lia|pose proof (fl_rem _ _ _ _ _ _ F); lia|]. destruct (marked_over _ _ _ _ _ _ _ _ _ _ _ Hp Hm Ec F) as (-> & Q). split; [exact Q|]. left. split; reflexivity.
    + destruct HR as (_ & Q & _). discriminate.
    + exfalso. destruct HR as (-> & K2 & K3 & K4). rewrite app_nil_r in Ec. rewrite Ec in K2. destruct K2 as [(L & _)|(z0 & z & Q1 & Q2 & Q3 & Q4)]; [rewrite zlen_app in L; pose proof (zlen_nonneg t); lia|].
      assert (z0 = morez zc t) as -> by congruence. assert (z = morez yc t) as ->. { apply (steps_end (px pr)); [|intros q; congruence]. apply (states_last _ _ _ _ _ Hp C1 C2 Q2). intros q; congruence. } congruence.
    + destruct HR as (K1 & _). split; [exact (EX K1)|right; reflexivity].
  - exfalso. pose proof (reach_output _ _ _ Hp (proj1 HR)) as RO. specialize (EX RO). destruct HR as (_ & HR). rewrite app_assoc, Ec in HR. destruct HR as [HW|(_ & HW & (z0 & z & yy & Q1 & Q2 & Q3 & Q4 & Q5))]; [exact (marked_not_wrong _ _ _ _ _ Hp Hm HW)|].
    assert (z0 = morez zc t) as -> by congruence. rewrite (EX HW) in *. assert (steps (px pr) (morez zc t) yy) as Sy by exact (StepsS _ _ _ _ Q2 Q3). pose proof (states_last _ _ _ _ _ Hp C1 Sy C2 ltac:(intros q; congruence)) as Q. destruct (steps_inv _ _ _ Ic Sy) as (Iyy & _). pose proof (steps_out_le _ _ _ Iyy Q) as L. cbn [morez z_out] in L. rewrite C3 in L. lia.
Qed.
(** ** The output does not depend on the calls *)
Theorem C50_calls_irrelevant pr p r o p' o' : lzprops_ok (format pr) -> session pr p r o -> session pr p' r o' -> prefix o o' \/ prefix o' o.
Proof.
  rewrite format_px. intros Hp H H'. pose proof (reach_output _ _ _ Hp (inv_reach _ _ _ _ [] Hp (session_inv _ _ _ _ Hp H))) as (q & Q). pose proof (reach_output _ _ _ Hp (inv_reach _ _ _ _ [] Hp (session_inv _ _ _ _ Hp H'))) as (q' & Q').
  rewrite Q in Q'. revert Q'. clear. revert o'. induction o as [|a o IH]; intros [|b o'] Q; [left; exists []; reflexivity|left; eexists; reflexivity|right; eexists; reflexivity|]. cbn in Q. injection Q as -> Q. destruct (IH _ Q) as [(t & ->)|(t & ->)]; [left|right]; exists t; reflexivity.
Qed.
(** ** The properties in the header *)
Theorem C50_properties data : (exists x, Props_Decode data = Ret x) /\
  forall pr, Props_Decode data = Ret (Some pr) <->
    exists b0 b1 b2 b3 b4 t, data = b0 :: b1 :: b2 :: b3 :: b4 :: t /\ lzprops_ok (format pr) /\ b0 mod 256 = (p_pb pr * 5 + p_lp pr) * 9 + p_lc pr /\
      p_dicSize pr = Z.max 4096 (b1 mod 256 + 256 * (b2 mod 256) + 65536 * (b3 mod 256) + 16777216 * (b4 mod 256)).
Proof.
  assert (5 <= zlen data \/ zlen data < 5) as [L|L] by lia.
  - destruct data as [|b0 [|b1 [|b2 [|b3 [|b4 t]]]]]; try (unfold zlen in L; cbn in L; lia).
    assert (Props_Decode (b0 :: b1 :: b2 :: b3 :: b4 :: t) = Ret (if 225 <=? b0 mod 256 then None else Some (mkProps (b0 mod 256 mod 9) (b0 mod 256 / 9 mod 5) (b0 mod 256 / 9 / 5) (Z.max 4096 (b1 mod 256 + 256 * (b2 mod 256) + 65536 * (b3 mod 256) + 16777216 * (b4 mod 256)))))) as EP.
    { unfold Props_Decode. destruct (Z.ltb_spec (zlen (b0 :: b1 :: b2 :: b3 :: b4 :: t)) 5); [lia|]. change (aget (b0 :: b1 :: b2 :: b3 :: b4 :: t) 0) with (Ret b0). change (aget (b0 :: b1 :: b2 :: b3 :: b4 :: t) 1) with (Ret b1). change (aget (b0 :: b1 :: b2 :: b3 :: b4 :: t) 2) with (Ret b2). change (aget (b0 :: b1 :: b2 :: b3 :: b4 :: t) 3) with (Ret b3). change (aget (b0 :: b1 :: b2 :: b3 :: b4 :: t) 4) with (Ret b4). cbn [bind]. cbv zeta. destruct (225 <=? b0 mod 256); [reflexivity|]. do 3 f_equal. match goal with |- (if ?a <? 4096 then _ else _) = _ => destruct (Z.ltb_spec a 4096) end; lia. }
    rewrite EP. split; [eexists; reflexivity|]. pose proof (Z.mod_pos_bound b0 256 ltac:(lia)) as B. intros pr. split.
    + intros Q. exists b0, b1, b2, b3, b4, t. split; [reflexivity|]. split; [apply (props_decoded (b0 :: b1 :: b2 :: b3 :: b4 :: t)); rewrite EP; exact Q|]. destruct (225 <=? b0 mod 256); [discriminate|]. injection Q as <-. cbn [p_lc p_lp p_pb p_dicSize]. split; [|reflexivity].
      pose proof (Z.div_mod (b0 mod 256) 9 ltac:(lia)). pose proof (Z.div_mod (b0 mod 256 / 9) 5 ltac:(lia)). lia.
    + intros (c0 & c1 & c2 & c3 & c4 & t' & E & (P1 & P2 & P3 & _) & E0 & ED). injection E as <- <- <- <- <- <-. cbn in P1, P2, P3. rewrite E0 in *. destruct (Z.leb_spec 225 ((p_pb pr * 5 + p_lp pr) * 9 + p_lc pr)); [lia|].
      assert (((p_pb pr * 5 + p_lp pr) * 9 + p_lc pr) / 9 = p_pb pr * 5 + p_lp pr) as E1 by (symmetry; apply (Z.div_unique _ _ _ (p_lc pr)); lia).
      assert (((p_pb pr * 5 + p_lp pr) * 9 + p_lc pr) mod 9 = p_lc pr) as E2 by (symmetry; apply (Z.mod_unique _ _ (p_pb pr * 5 + p_lp pr)); lia).
      assert ((p_pb pr * 5 + p_lp pr) / 5 = p_pb pr) as E3 by (symmetry; apply (Z.div_unique _ _ _ (p_lp pr)); lia).
      assert ((p_pb pr * 5 + p_lp pr) mod 5 = p_lp pr) as E4 by (symmetry; apply (Z.mod_unique _ _ (p_pb pr)); lia).
      rewrite E1, E2, E3, E4, <- ED. destruct pr; reflexivity.
  - unfold Props_Decode. destruct (Z.ltb_spec (zlen data) 5); [|lia]. split; [eexists; reflexivity|]. intros pr. split; [discriminate|]. intros (b0 & b1 & b2 & b3 & b4 & t & -> & _). unfold zlen in L. cbn in L. lia.
Qed.

(** ** Concrete data *)
Lemma run_marked p c n z k : start c = Some z -> step p (lzrun n p z) = Marked k -> k_in k = [] -> k_code k = 0 -> lz_marked_data p c (z_out (lzrun n p z)).
Proof. intros H1 H2 H3 H4. exists z, (lzrun n p z), k. split; [exact H1|]. split; [apply lzrun_steps|]. split; [reflexivity|]. split; [exact H2|]. split; assumption. Qed.
Definition is_marked (p : lzprops) (c x : list Z) (n : nat) : bool :=
  match start c with
  | Some z => match step p (lzrun n p z) with
              | Marked k => match k_in k with [] => k_code k =? 0 | _ => false end && (if list_eq_dec Z.eq_dec (z_out (lzrun n p z)) x then true else false)
              | _ => false end
  | None => false
  end.
Lemma is_marked_ok p c x n : is_marked p c x n = true -> lz_marked_data p c x.
Proof.
  unfold is_marked. destruct (start c) as [z|] eqn:E; [|discriminate]. destruct (step p (lzrun n p z)) as [| |k|] eqn:Es; try discriminate. destruct (k_in k) eqn:Ek; [|discriminate]. intros H. apply andb_true_iff in H. destruct H as (H1 & H2). apply Z.eqb_eq in H1.
  destruct (list_eq_dec Z.eq_dec (z_out (lzrun n p z)) x) as [<-|]; [|discriminate]. exact (run_marked _ _ _ _ _ E Es Ek H1).
Qed.
Definition is_unmarked (p : lzprops) (c x : list Z) (n : nat) : bool :=
  match start c with
  | Some z => let y := lzrun n p z in match k_in (z_coder y) with [] => k_code (z_coder y) =? 0 | _ => false end && (if list_eq_dec Z.eq_dec (z_out y) x then true else false)
  | None => false
  end.
Lemma is_unmarked_ok p c x n : is_unmarked p c x n = true -> lz_unmarked_data p c x.
Proof.
  unfold is_unmarked. destruct (start c) as [z|] eqn:E; [|discriminate]. cbv zeta. destruct (k_in (z_coder (lzrun n p z))) eqn:Ek; [|discriminate]. intros H. apply andb_true_iff in H. destruct H as (H1 & H2). apply Z.eqb_eq in H1.
  destruct (list_eq_dec Z.eq_dec (z_out (lzrun n p z)) x) as [<-|]; [|discriminate]. exists z, (lzrun n p z). split; [exact E|]. split; [apply lzrun_steps|]. split; [reflexivity|]. split; assumption.
Qed.
(** a file that was written by xz: a header of 13 bytes, and the stream, with matches, repeated matches and an end mark *)
Definition ex_file : list Z := [93; 0; 16; 0; 0; 255; 255; 255; 255; 255; 255; 255; 255; 0; 52; 25; 73; 238; 141; 233; 80; 150; 8; 6; 246; 232; 144; 238; 98; 45; 118; 204; 158; 240; 109; 52; 141; 52; 198; 108; 115; 48; 204; 129; 31; 172; 133; 44; 16; 238; 252; 171; 187; 215; 169; 164; 214; 110; 42; 124; 56; 18; 180; 221; 90; 111; 27; 113; 182; 52; 229; 74; 235; 237; 230; 101; 230; 225; 93; 80; 90; 43; 255; 226; 238; 128; 0].
Definition ex_c : list Z := skipn 13 ex_file.
Definition ex_x : list Z := [104; 101; 108; 108; 111; 32; 104; 101; 108; 108; 111; 32; 104; 101; 108; 108; 111; 32; 119; 111; 114; 108; 100; 44; 32; 104; 101; 108; 108; 111; 32; 119; 111; 114; 108; 100; 32; 97; 98; 99; 97; 98; 99; 97; 98; 99; 97; 98; 99; 97; 98; 99; 97; 98; 99; 97; 98; 99; 97; 98; 99; 104; 101; 108; 108; 111; 32; 104; 101; 108; 108; 111; 32; 104; 101; 108; 108; 111; 32; 119; 111; 114; 108; 100; 44; 32; 104; 101; 108; 108; 111; 32; 119; 111; 114; 108; 100; 32; 97; 98; 99; 97; 98; 99; 97; 98; 99; 97; 98; 99; 97; 98; 99; 97; 98; 99; 97; 98; 99; 97; 98; 99; 0; 1; 2; 3; 4; 5; 6; 7; 8; 9; 10; 11; 12; 13; 14; 15; 16; 17; 18; 19; 20; 21; 22; 23; 24; 25; 26; 27; 28; 29; 30; 31; 32; 33; 34; 35; 36; 37; 38; 39].
Definition ex_pr : props := mkProps 3 0 2 4096.
Example ex_props : Props_Decode (firstn 5 ex_file) = Ret (Some ex_pr). Proof. vm_compute. reflexivity. Qed.
Example ex_props_ok : lzprops_ok (format ex_pr). Proof. unfold lzprops_ok; cbn; lia. Qed.
Example ex_marked : lz_marked_data (format ex_pr) ex_c ex_x. Proof. apply (is_marked_ok _ _ _ 200). vm_compute. reflexivity. Qed.
Example ex_output : lz_output (format ex_pr) ex_c = ex_x. Proof. rewrite <- (app_nil_r ex_c). apply (marked_output _ _ _ _ ex_props_ok ex_marked). Qed.
(** a session with a call that delivers some bytes from the first 20; the rest comes with one more call *)
Definition ex_summary (x : out (dec * Z * list Z * bool * lstatus)) : option (Z * list Z * bool * lstatus) := match x with Ret (_, n, y, ok, st) => Some (n, y, ok, st) | _ => None end.
Example ex_call : ex_summary (DecodeToBuf (decoder ex_pr) 30 (firstn 20 ex_c) false) = Some (20, firstn 30 ex_x, true, SNotFinished).
Proof. vm_compute. reflexivity. Qed.
Example ex_session : exists p r o, session ex_pr p r o /\ r = firstn 20 ex_c /\ o = firstn 30 ex_x /\
  exists p' n y, DecodeToBuf p 1000 (skipn 20 ex_c ++ [1; 2; 3]) false = Ret (p', n, y, true, SFinishedWithMark) /\ n = zlen ex_c - 20 /\ o ++ y = ex_x.
Proof.
  pose proof ex_call as E. destruct (DecodeToBuf (decoder ex_pr) 30 (firstn 20 ex_c) false) as [((((p & n) & y) & ok) & st)| | |] eqn:EF; [|discriminate..]. cbn [ex_summary] in E.
  assert (n = 20 /\ y = firstn 30 ex_x /\ ok = true /\ st = SNotFinished) as (-> & -> & -> & ->) by (split; [|split; [|split]]; congruence).
  assert (0 <= 30) as H30 by lia; pose proof (S_call ex_pr _ _ _ _ _ _ _ _ _ _ (S_new ex_pr) H30 EF) as HS. cbn [app] in HS.
  exists p, (firstn (Z.to_nat 20) (firstn 20 ex_c)), (firstn 30 ex_x). split; [exact HS|]. split; [vm_compute; reflexivity|]. split; [reflexivity|].
  destruct (C50_marked_decoded ex_pr p _ _ 1000 (skipn 20 ex_c ++ [1; 2; 3]) false ex_c ex_x [1; 2; 3] ex_props_ok HS ex_marked) as (p' & n & y & Q1 & Q2 & Q3); [vm_compute; reflexivity|vm_compute; reflexivity|].
  exists p', n, y. split; [exact Q1|]. split; [|exact Q3]. apply (f_equal zlen) in Q2. destruct (C50_call_returns ex_pr p _ _ 1000 (skipn 20 ex_c ++ [1; 2; 3]) false ex_props_ok HS ltac:(lia)) as (p2 & n2 & y2 & ok2 & st2 & R1 & R2 & _). assert (n2 = n) as -> by congruence.
  rewrite zlen_app in Q2. assert (zlen (firstn (Z.to_nat n) (skipn 20 ex_c ++ [1; 2; 3])) = n) as Q4 by (unfold zlen in *; rewrite firstn_length; lia). rewrite Q4 in Q2. assert (zlen (firstn (Z.to_nat 20) (firstn 20 ex_c)) = 20) as Q5 by (vm_compute; reflexivity). lia.
Qed.
(** data without an end mark, from an encoder of literals *)
Definition ex_u : list Z := [0; 37; 145; 4; 185; 246; 50; 88; 166; 30; 18; 221; 4; 60; 18; 229; 0].
Definition ex_ux : list Z := [75; 68; 69; 32; 115; 116; 114; 101; 97; 109; 115].
Example ex_unmarked : lz_unmarked_data (format ex_pr) ex_u ex_ux. Proof. apply (is_unmarked_ok _ _ _ 50). vm_compute. reflexivity. Qed.
Example ex_unmarked_call : ex_summary (DecodeToBuf (decoder ex_pr) 11 ex_u true) = Some (17, ex_ux, true, SMaybeFinished). Proof. vm_compute. reflexivity. Qed.
(** wrong data: a match before the start of the data; more data than the caller said *)
Example ex_wrong : match ex_summary (DecodeToBuf (decoder ex_pr) 100 [0; 200; 1; 2; 3; 4; 5; 6; 7; 8; 9; 10; 11; 12; 13; 14; 15; 16; 17; 18; 19; 20; 21; 22; 23; 24; 25; 26; 27; 28] false) with Some (_, _, ok, _) => ok = false | None => False end.
Proof. vm_compute. reflexivity. Qed.
Example ex_too_much : match ex_summary (DecodeToBuf (decoder ex_pr) 10 ex_c true) with Some (_, y, ok, _) => ok = false /\ y = firstn 10 ex_x | None => False end.
Proof. vm_compute. split; reflexivity. Qed.
