(** LzmaDec_TryDummy: the kind of the next symbol, or that the input ends before it. *)
From Verif Require Import Base LzmaFormatSpec P_LzmaFormat P_LzmaFormat2 M_LzmaDec P_LzmaDec1 P_LzmaDec2 P_LzmaDec3 P_LzmaDec4 P_LzmaDec5.

Definition kind (s : symbol) : dummy := match s with Lit _ => DLIT | New _ _ | EndMark => DMATCH | Short | Again _ _ => DREP end.
(** the decoder between two symbols and the state of the format; the input of [z] is not in the decoder *)
Record DZ (p : dec) (z : lz) : Prop := {
  dz_props : lzprops_ok (px (d_prop p)); dz_inv : zinv (px (d_prop p)) z;
  dz_range : d_range p = k_range (z_coder z); dz_code : d_code p = k_code (z_coder z); dz_probs : probs_ok (d_prop p) (d_probs p) (k_probs (z_coder z));
  dz_state : d_state p = z_state z; dz_rep0 : d_rep0 p = z_rep0 z; dz_rep1 : d_rep1 p = z_rep1 z; dz_rep2 : d_rep2 p = z_rep2 z; dz_rep3 : d_rep3 p = z_rep3 z }.
(** [o] is written *)
Record DO (p : dec) (o : list Z) : Prop := {
  do_ring : Ring (p_dicSize (d_prop p)) (d_dic p) (d_dicPos p) o; do_proc : d_processed p = u32 (zlen o); do_check : check_ok (d_prop p) (d_check p) o }.

Lemma dummy_run_ok p z : DZ p z -> DO p (z_out z) -> tr (dummy_run p (k_in (z_coder z))) (next_sym (px (d_prop p)) z) (z_coder z)
  (fun x s k' => DR (d_prop p) (k_in (z_coder z)) (d_probs p) (fst x) k' /\ snd x = kind s).
Proof.
  intros [Hp I Ra Co Pb St R0 R1 R2 R3] [R Pr Ck]. set (pr := d_prop p) in *. set (src := k_in (z_coder z)). set (D := p_dicSize pr) in *. pose proof (Hl pr Hp) as Hl'.
  assert (DR pr src (d_probs p) (d_range p, d_code p, 0) (z_coder z)) as C.
  { constructor; cbn [fst snd]; [exact Ra|exact Co| |exact Pb|apply (zi_good _ _ I)]. split; [pose proof (zlen_nonneg src); lia|reflexivity]. }
  unfold dummy_run, next_sym. cbv zeta. fold pr. rewrite Pr, St. destruct (posState_ok pr Hp (zlen (z_out z))) as (-> & Hpos).
  change (x_pb (px pr)) with (p_pb pr). change (x_lp (px pr)) with (p_lp pr). change (x_lc (px pr)) with (p_lc pr). fold (litctx pr (z_out z)). set (pos := zlen (z_out z) mod 2 ^ p_pb pr) in *. pose proof (zi_state _ _ I) as Hst.
  pose proof (litctx_range pr Hp (z_out z) (zi_bytes _ _ I)) as Hlit.
  unfold sym. apply (tr_bind _ _ _ _ _ (DB pr src (d_probs p))); [apply bit_check_ok; [split; [exact Hst|exact Hpos]|cbn [idx]; change IsMatch with 0; lia|exact C]|].
  intros (r1, m) m' k1 (C1 & E). cbn [fst snd] in *. subst m'. destruct m; cbn [negb].
  - apply (tr_bind _ _ _ _ _ (DB pr src (d_probs p))); [apply bit_check_ok; [exact Hst|cbn [idx]; change IsRep with 192; lia|exact C1]|].
    intros (r2, rep) rep' k2 (C2 & E). cbn [fst snd] in *. subst rep'. destruct rep; cbn [negb].
    + apply (tr_bind _ _ _ _ _ (DB pr src (d_probs p))); [apply bit_check_ok; [exact Hst|cbn [idx]; change IsRepG0 with 204; lia|exact C2]|].
      intros (r3, g0) g0' k3 (C3 & E). cbn [fst snd] in *. subst g0'.
      apply (tr_bind _ _ _ _ _ (fun x w k' => DR pr src (d_probs p) (fst x) k' /\ snd x = match w with None => true | _ => false end)).
      * destruct g0; cbn [negb].
        -- apply (tr_bind _ _ _ _ _ (DB pr src (d_probs p))); [apply bit_check_ok; [exact Hst|cbn [idx]; change IsRepG1 with 216; lia|exact C3]|].
           intros (r4, g1) g1' k4 (C4 & E). cbn [fst snd] in *. subst g1'. destruct g1; cbn [negb]; [|apply tr_done; split; [exact C4|reflexivity]].
           apply (tr_bind _ _ _ _ _ (DB pr src (d_probs p))); [apply bit_check_ok; [exact Hst|cbn [idx]; change IsRepG2 with 228; lia|exact C4]|].
           intros (r5, g2) g2' k5 (C5 & E). cbn [fst snd] in *. apply tr_done; split; [exact C5|reflexivity].
        -- apply (tr_bind _ _ _ _ _ (DB pr src (d_probs p))); [apply bit_check_ok; [split; [exact Hst|exact Hpos]|cbn [idx]; change IsRep0Long with 240; lia|exact C3]|].
           intros (r4, long) long' k4 (C4 & E). cbn [fst snd] in *. subst long'. apply tr_done; split; [exact C4|]. destruct long; reflexivity.
      * intros (r4, short) w k4 (C4 & E). cbn [fst snd] in *. subst short. destruct w as [w|].
        -- apply (tr_bind _ _ _ _ _ (fun x a k' => P_LzmaDec3.DZ pr src (d_probs p) x a k' /\ 0 <= a < 272)); [apply (len_check_ok pr src (d_probs p) true pos); [exact Hpos|exact C4]|].
           intros (r5, l) l' k5 ((C5 & E) & _). cbn [fst snd] in *. apply tr_done. split; [exact C5|reflexivity].
        -- apply tr_done. split; [exact C4|reflexivity].
    + apply (tr_bind _ _ _ _ _ (fun x a k' => P_LzmaDec3.DZ pr src (d_probs p) x a k' /\ 0 <= a < 272)); [apply (len_check_ok pr src (d_probs p) false pos); [exact Hpos|exact C2]|].
      intros (r3, l) l' k3 ((C3 & E) & Hlen). cbn [fst snd] in *. subst l'.
      apply (tr_bind _ _ _ _ _ (fun x a k' => DR pr src (d_probs p) x k')); [apply distance_check_ok; [lia|exact C3]|].
      intros r4 d k4 C4. apply tr_done. split; [exact C4|]. cbn [snd]. destruct (d =? 4294967295); reflexivity.
  - rewrite (literal_probs_ok pr _ Hp _ _ _ R Ck). cbn [bind]. apply (tr_bind _ _ _ _ _ (fun x a k' => DR pr src (d_probs p) (fst x) k')).
    + destruct (Z.ltb_spec (z_state z) 7) as [Q|Q]; [apply literal_check_ok; [exact Hlit|exact C1]|].
      assert (z_out z <> []) as Hne by (intros Q2; pose proof (zi_first _ _ I Q2); lia). rewrite R0. destruct (zi_rep0 _ _ I) as (H1 & H2). change (x_dict (px pr)) with D in H1.
      unfold d_bufSize. assert (1 <= z_rep0 z <= zlen (z_out z)) as H3 by (destruct (z_out z) as [|b o]; [contradiction|rewrite zlen_cons in *; pose proof (zlen_nonneg o); lia]).
      rewrite (ring_get _ _ _ _ _ R H3 ltac:(lia)). cbn [bind].
      pose proof (matched_check_ok pr src (d_probs p) Hl' (litctx pr (z_out z)) (back (z_rep0 z) (z_out z)) Hlit 8 8 0 1 r1 k1 ltac:(lia) ltac:(lia) ltac:(lia) ltac:(lia) ltac:(cbn; lia) ltac:(cbn; lia) C1) as H. rewrite Z.mul_1_r in H. exact H.
    + intros (r2, sy) b k2 C2. cbn [fst] in C2. apply tr_done. split; [exact C2|reflexivity].
Qed.
Theorem TryDummy_ok p z : DZ p z -> DO p (z_out z) ->
  TryDummy p (k_in (z_coder z)) = Ret (match decoded (px (d_prop p)) z with Some (s, _) => kind s | None => DERROR end).
Proof.
  intros H1 H2. pose proof (dummy_run_ok p z H1 H2) as H. unfold tr in H. unfold TryDummy, decoded.
  pose proof (fdecode_fresh (next_sym (px (d_prop p)) z) (k_probs (z_coder z)) (fun _ => False) (z_coder z) (sym_fresh _ _ _ _) (fun c _ => eq_refl)) as EF.
  assert (fixed (k_probs (z_coder z)) (z_coder z) = z_coder z) as Ek by (unfold fixed; destruct (z_coder z); reflexivity). rewrite Ek in EF. rewrite EF in H.
  destruct (decode (next_sym (px (d_prop p)) z) (z_coder z)) as [(s, k)|]; [|rewrite H; reflexivity]. destruct H as ((r, res) & -> & (C & Hs)). cbn [fst snd] in *. unfold dbind at 1. cbn [bind].
  pose proof (normalize_check_ok _ _ _ _ _ C) as HN. rewrite norm_fixed in HN. destruct (norm k) as [k'|]; cbn [option_map] in HN.
  - destruct HN as (d' & -> & _). cbn. rewrite Hs. reflexivity.
  - rewrite HN. reflexivity.
Qed.
