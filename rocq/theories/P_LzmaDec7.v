(** The loops of LzmaDec_DecodeReal and LzmaDec_DecodeReal2. *)
From Verif Require Import Base LzmaFormatSpec P_LzmaFormat P_LzmaFormat2 M_LzmaDec P_LzmaDec1 P_LzmaDec2 P_LzmaDec3 P_LzmaDec4 P_LzmaDec5 P_LzmaDec6.

Lemma at_in_len src buf t : at_in src buf t -> zlen t = zlen src - buf.
Proof. intros (H & ->). unfold zlen in *. rewrite skipn_length. lia. Qed.
Lemma at_in_inj src b1 b2 t : at_in src b1 t -> at_in src b2 t -> b1 = b2.
Proof. intros H1 H2. apply at_in_len in H1. apply at_in_len in H2. lia. Qed.
Lemma norm_len1 k k' : norm k = Some k' -> zlen (k_in k) - 1 <= zlen (k_in k').
Proof. unfold norm. destruct (_ <? _); [|intros E; injection E as <-; lia]. destruct (k_in k) as [|b r]; [discriminate|]. intros E; injection E as <-. cbn [k_in]. rewrite zlen_cons. lia. Qed.

Section Loop.
Variables (pr : props) (check limit : Z) (src : list Z) (bufLimit : Z).
Hypothesis Hp : lzprops_ok (px pr).
Let p := px pr.
Let D := p_dicSize pr.
Hypothesis HB : bufLimit <= 0 \/ bufLimit + 20 <= zlen src.
(** [z]: the start of the loop *)
Record Fin (v v' : vars) (z z' : lz) (o : list Z) : Prop := {
  fn_steps : steps p z z';
  fn_rc : exists k, CR pr src (v_rc v') k /\ norm k = Some (z_coder z');
  fn_ring : Ring D (v_dic v') (v_dicPos v') o; fn_proc : v_processed v' = u32 (zlen o); fn_state : v_state v' = z_state z';
  fn_rep0 : v_rep0 v' = z_rep0 z'; fn_rep1 : v_rep1 v' = z_rep1 z'; fn_rep2 : v_rep2 v' = z_rep2 z'; fn_rep3 : v_rep3 v' = z_rep3 z';
  fn_out : z_out z' = copy (Z.to_nat (v_len v')) (z_rep0 z') o; fn_len : 0 <= v_len v' < 274;
  fn_pos : v_dicPos v' = v_dicPos v + (zlen o - zlen (z_out z)); fn_more : v_dicPos v < v_dicPos v' <= limit; fn_full : v_len v' <> 0 -> v_dicPos v' = limit;
  fn_pre : exists w, o = z_out z ++ w; fn_dist : v_len v' <> 0 -> z_rep0 z' <= zlen o;
  fn_cross : exists y, steps p z y /\ step p y = Next z' /\ zlen (z_out y) < zlen o }.
Record Mark (v v' : vars) (z z' : lz) (kn : coder) : Prop := {
  mk_steps : steps p z z'; mk_step : step p z' = Marked kn;
  mk_rc : exists k, CR pr src (v_rc v') k /\ norm k = Some kn;
  mk_ring : Ring D (v_dic v') (v_dicPos v') (z_out z'); mk_proc : v_processed v' = u32 (zlen (z_out z'));
  mk_pos : v_dicPos v' = v_dicPos v + (zlen (z_out z') - zlen (z_out z)); mk_lim : v_dicPos v <= v_dicPos v' <= limit; mk_len : 274 <= v_len v' < 546 }.
Lemma loop_ok : forall fuel v k z, VZ pr check src v z -> CR pr src (v_rc v) k -> norm k = Some (z_coder z) -> v_dicPos v <= limit <= D ->
  (Z.to_nat (limit - v_dicPos v) < fuel)%nat -> (check = 0 -> zlen (z_out z) + (limit - v_dicPos v) <= D) ->
  decoded p z <> None -> (v_dicPos v < limit \/ forall s kn, decoded p z = Some (s, kn) -> bulk s) ->
  exists x, decode_loop fuel src pr check limit bufLimit v = Ret x /\
    match x with
    | Cont v' => (exists z' o, Fin v v' z z' o) /\ (v_dicPos v' = limit \/ bufLimit <= r_buf (v_rc v'))
    | Break v' => exists z' kn, Mark v v' z z' kn
    | Bad l d => exists z' pos, steps p z z' /\ Ring D d pos (z_out z') /\ pos = v_dicPos v + (zlen (z_out z') - zlen (z_out z)) /\ v_dicPos v <= pos <= limit /\
        (step p z' = Invalid \/ (z' = z /\ v_dicPos v = limit /\ exists y, step p z = Next y))
    end.
Proof.
  induction fuel as [|fuel IH]; intros v k z V C En Hlim Hfuel Hck Hdec Hbulk; [lia|]. cbn [decode_loop].
  destruct (decoded p z) as [(s, kn)|] eqn:Ed; [|congruence]. clear Hdec. unfold decoded in Ed. destruct (decode (next_sym p z) (z_coder z)) as [(s', k1)|] eqn:Ed1; [|discriminate]. destruct (norm k1) as [k2|] eqn:En1; [|discriminate].
  assert (s' = s /\ k2 = kn) as (-> & ->) by (split; congruence). clear Ed.
  assert (decoded p z = Some (s, kn)) as Ed by (unfold decoded; rewrite Ed1, En1; reflexivity).
  assert (decode (next_sym p z) k = Some (s, k1)) as Ed2 by (rewrite <- Ed1; apply decode_norm; [apply (zi_normal _ _ (vz_inv _ _ _ _ _ V))|exact En]).
  destruct (round_ok pr check limit Hp src v k z V C Hlim s k1 Ed2) as (x & -> & HX).
  { destruct Hbulk as [H|H]; [left; exact H|right; exact (H _ _ eq_refl)]. }
  cbn [bind]. specialize (HX kn). fold p in HX. assert (step p z = apply_sym p z s kn) as Es by (rewrite step_eq, Ed; reflexivity). rewrite <- Es in HX. destruct (step p z) as [|z'|kk|] eqn:Est.
  - contradiction.
  - destruct (Z.eqb_spec (v_dicPos v) limit) as [Q|Q].
    { destruct HX as (l & ->). eexists; split; [reflexivity|]. exists z, (v_dicPos v). split; [constructor|]. split; [apply (vz_ring _ _ _ _ _ V)|]. split; [lia|]. split; [lia|]. right. split; [reflexivity|]. split; [exact Q|]. exists z'. reflexivity. }
    destruct HX as (v' & o & -> & N). destruct N as [N1 N2 N3 N4 N5 N6 N7 N8 N9 N10 N11 N12 N13 N14 N15].
    destruct (step_next p z z' (vz_inv _ _ _ _ _ V) Est) as (I' & _ & _ & _).
    assert (z_coder z' = kn) as Ek.
    { destruct (decoded_some _ _ _ _ (zi_good _ _ (vz_inv _ _ _ _ _ V)) Ed) as (G2 & Nn & _). destruct (apply_inv p z s kn z' (vz_inv _ _ _ _ _ V) (decoded_sym _ _ _ _ Ed) G2 Nn (eq_sym Es)) as (_ & Hc & _). exact Hc. }
    destruct ((v_dicPos v' <? limit) && (r_buf (v_rc v') <? bufLimit)) eqn:Ec.
    + apply andb_true_iff in Ec. destruct Ec as (Ec1 & Ec2). apply Z.ltb_lt in Ec1. apply Z.ltb_lt in Ec2.
      assert (v_len v' = 0) as L0 by (destruct (Z.eq_dec (v_len v') 0) as [e|e]; [exact e|specialize (N13 e); lia]).
      rewrite L0 in N9. change (Z.to_nat 0) with 0%nat in N9. cbn [copy] in N9.
      destruct (IH v' k1 z') as (x & Ex & HX); try lia.
      * constructor; try assumption; [rewrite N9; exact N2|rewrite N9; exact N3|]. destruct (vz_check _ _ _ _ _ V) as [(c0 & c1)|(c0 & c1)]; [left|right]; (split; [exact c0|]); rewrite N9; [specialize (Hck c0)|]; fold D in c1 |- *; lia.
      * exact N1.
      * rewrite En1. congruence.
      * rewrite N9. intros c0. specialize (Hck c0). lia.
      * apply enough_input; [apply (zi_good _ _ I')|apply (zi_normal _ _ I')|]. rewrite Ek. pose proof (norm_len1 _ _ En1). pose proof (at_in_len _ _ _ (cr_in _ _ _ _ N1)). destruct (cr_in _ _ _ _ N1) as (Hb & _). lia.
      * exists x. split; [exact Ex|]. destruct x as [w|w|l d].
        -- destruct HX as ((y & o2 & F) & HX). split; [|exact HX]. exists y, o2. destruct F as [F1 F2 F3 F4 F5 F6 F7 F8 F9 F10 F11 F12 F13 F14 F15 F16 F17]. constructor; try assumption; try lia.
           ++ apply (steps_trans _ _ z'); [|exact F1]. apply (StepsS _ _ z); [constructor|exact Est].
           ++ rewrite F12, N9, N11. lia.
           ++ destruct F15 as (w1 & ->). destruct N14 as (w2 & E2). rewrite N9, E2. exists (w2 ++ w1). rewrite app_assoc. reflexivity.
           ++ destruct F17 as (yy & Y1 & Y2). exists yy. split; [|exact Y2]. apply (steps_trans _ _ z'); [|exact Y1]. apply (StepsS _ _ z); [constructor|exact Est].
        -- destruct HX as (y & k3 & M). exists y, k3. destruct M as [M1 M2 M3 M4 M5 M6 M7 M8]. constructor; try assumption; try lia.
           ++ apply (steps_trans _ _ z'); [|exact M1]. apply (StepsS _ _ z); [constructor|exact Est].
           ++ rewrite M6, N9, N11. lia.
        -- destruct HX as (y & pos & S1 & S2 & S3 & S4 & S5). exists y, pos. split; [apply (steps_trans _ _ z'); [|exact S1]; apply (StepsS _ _ z); [constructor|exact Est]|]. split; [exact S2|]. split; [rewrite S3, N9, N11; lia|]. split; [lia|]. destruct S5 as [S5|(_ & S5 & _)]; [left; exact S5|lia].
    + exists (Cont v'). split; [reflexivity|]. split.
      * exists z', o. constructor; try assumption. { apply (StepsS _ _ z); [constructor|exact Est]. } { exists k1. split; [exact N1|]. rewrite Ek. exact En1. } exists z. split; [constructor|]. split; [exact Est|]. lia.
      * apply andb_false_iff in Ec. destruct Ec as [Ec|Ec]; apply Z.ltb_ge in Ec; [left|right]; lia.
  - destruct HX as (v' & -> & C' & E1 & E2 & E3 & E4). exists (Break v'). split; [reflexivity|]. exists z, kk.
    assert (kk = kn) as -> by (revert Es; unfold apply_sym; destruct s as [b|l d| |w l|]; try discriminate; [destruct (_ && _); discriminate|destruct (z_out z); discriminate|destruct (z_out z); [discriminate|]; destruct (w =? 0); [discriminate|]; destruct (w =? 1); [discriminate|]; destruct (w =? 2); discriminate|congruence]).
    constructor; try assumption; try lia.
    + constructor.
    + exists k1. split; [exact C'|exact En1].
    + rewrite E1, E2. apply (vz_ring _ _ _ _ _ V).
    + rewrite E3. apply (vz_proc _ _ _ _ _ V).
  - destruct HX as (l & ->). eexists; split; [reflexivity|]. exists z, (v_dicPos v). split; [constructor|]. split; [apply (vz_ring _ _ _ _ _ V)|]. split; [lia|]. split; [lia|]. left. exact Est.
Qed.
End Loop.
