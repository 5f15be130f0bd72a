(** What the states between calls mean for the whole stream. *)
From Verif Require Import Base InflateSpec LzmaFormatSpec P_LzmaFormat P_LzmaFormat2 M_LzmaDec P_LzmaDec1 P_LzmaDec2 P_LzmaDec3 P_LzmaDec4 P_LzmaDec5 P_LzmaDec6 P_LzmaDec7 P_LzmaDec8 P_LzmaDec9 P_LzmaDec10 P_LzmaDec11 P_LzmaDec12.

(** ** with code 0 the next symbol is a literal *)
Lemma zero_symbol p z s k : zinv p z -> k_code (z_coder z) = 0 -> decoded p z = Some (s, k) -> exists b, s = Lit b.
Proof.
  intros I Hc. pose proof (zi_good _ _ I) as (G1 & G2 & G3). pose proof (zi_normal _ _ I) as N. unfold normal in N.
  unfold decoded, next_sym, sym. cbv zeta. cbn [one pbind decode]. unfold norm at 1. destruct (Z.ltb_spec (k_range (z_coder z)) (2 ^ 24)) as [L|L]; [change (2 ^ 24) with 16777216 in L; lia|].
  unfold coded at 1. set (v := k_probs (z_coder z) _). cbv zeta. assert (0 < k_range (z_coder z) / 2048 * v) as Hb.
  { apply Z.mul_pos_pos; [|unfold v; match goal with |- 0 < k_probs _ ?c => specialize (G1 c); lia end]. apply Z.div_str_pos. lia. }
  rewrite Hc. destruct (Z.ltb_spec 0 (k_range (z_coder z) / 2048 * v)) as [L2|L2]; [|lia]. rewrite decode_bind.
  match goal with |- context [decode ?P ?K] => destruct (decode P K) as [(b & k1)|]; [|discriminate] end.
  cbn [decode]. destruct (norm k1); [|discriminate]. intros Q. injection Q as <- _. exists b. reflexivity.
Qed.
Lemma zero_step p z : zinv p z -> k_code (z_coder z) = 0 -> step p z = Starved \/ exists y, step p z = Next y.
Proof.
  intros I Hc. rewrite step_eq. destruct (decoded p z) as [(s & k)|] eqn:E; [|left; reflexivity]. destruct (zero_symbol _ _ _ _ I Hc E) as (b & ->). right. eexists. reflexivity.
Qed.

(** ** states of a stream *)
Lemma steps_end p z x : steps p z x -> (forall y, step p z <> Next y) -> x = z.
Proof. intros H N. destruct (steps_first _ _ _ H) as [<-|(y & E & _)]; [reflexivity|]. exfalso. exact (N _ E). Qed.
Lemma steps_out_le p z x : zinv p z -> steps p z x -> zlen (z_out z) <= zlen (z_out x).
Proof. intros I H. destruct (steps_inv _ _ _ I H) as (_ & (w & ->) & _). rewrite zlen_app. pose proof (zlen_nonneg w). lia. Qed.
Lemma steps_same p z x : zinv p z -> steps p z x -> zlen (z_out x) <= zlen (z_out z) -> x = z.
Proof.
  intros I H L. destruct (steps_first _ _ _ H) as [<-|(y & E & H2)]; [reflexivity|]. destruct (step_next _ _ _ I E) as (I2 & (w & W & Lw) & _). pose proof (steps_out_le _ _ _ I2 H2). rewrite W, zlen_app in H0. lia.
Qed.
(** two states with as much output are the same *)
Lemma states_same p r z0 a b : lzprops_ok p -> start r = Some z0 -> steps p z0 a -> steps p z0 b -> zlen (z_out a) = zlen (z_out b) -> a = b.
Proof.
  intros Hp E Ha Hb L. destruct (start_inv p _ _ Hp E) as (I & _). destruct (steps_inv _ _ _ I Ha) as (Ia & _). destruct (steps_inv _ _ _ I Hb) as (Ib & _).
  destruct (steps_linear _ _ _ _ Ha Hb) as [H|H]; [symmetry|]; apply (steps_same p); try assumption; lia.
Qed.
(** a state with no successor comes last *)
Lemma states_last p r z0 a b : lzprops_ok p -> start r = Some z0 -> steps p z0 a -> steps p z0 b -> (forall y, step p b <> Next y) -> steps p a b.
Proof. intros Hp E Ha Hb N. destruct (steps_linear _ _ _ _ Ha Hb) as [H|H]; [exact H|]. rewrite (steps_end _ _ _ H N). constructor. Qed.
Lemma states_between p r z0 a b y : lzprops_ok p -> start r = Some z0 -> steps p z0 a -> step p a = Next y -> steps p z0 b -> zlen (z_out a) < zlen (z_out b) -> zlen (z_out y) <= zlen (z_out b).
Proof.
  intros Hp E Ha Hy Hb L. destruct (start_inv p _ _ Hp E) as (I & _). destruct (steps_inv _ _ _ I Ha) as (Ia & _). destruct (steps_inv _ _ _ I Hb) as (Ib & _).
  destruct (steps_linear _ _ _ _ Ha Hb) as [H|H]; [|pose proof (steps_out_le _ _ _ Ib H); lia].
  destruct (steps_first _ _ _ H) as [Q|(y' & E1 & H2)]; [subst; lia|]. assert (y' = y) as -> by congruence. destruct (step_next _ _ _ Ia Hy) as (Iy & _). apply (steps_out_le p); assumption.
Qed.

(** ** the invariant, in terms of the stream *)
Record Flow (pr : props) (p : dec) (r o : list Z) (z0 z : lz) : Prop := {
  fl_start : start r = Some z0; fl_steps : steps (px pr) z0 z; fl_code : d_code p = k_code (z_coder z); fl_in : k_in (z_coder z) = d_temp p; fl_temp : zlen (d_temp p) < 20;
  fl_rem : 0 <= d_remain p < 274; fl_out : exists w, z_out z = o ++ w /\ zlen w = d_remain p;
  fl_cross : d_remain p <> 0 -> exists y, steps (px pr) z0 y /\ step (px pr) y = Next z /\ zlen (z_out y) < zlen o;
  fl_stop : d_temp p <> [] -> d_remain p = 0 /\ decoded (px pr) z = None }.
Record Over (pr : props) (p : dec) (r o : list Z) (z0 z : lz) (k : coder) : Prop := {
  ov_start : start r = Some z0; ov_steps : steps (px pr) z0 z; ov_mark : step (px pr) z = Marked k; ov_in : k_in k = []; ov_code : d_code p = k_code k; ov_out : z_out z = o; ov_rem : d_remain p = 274 }.
Lemma inv_view pr p r o : lzprops_ok (px pr) -> INV pr p r o ->
  (d_needFlush p = true /\ zlen r < 5 /\ o = [] /\ d_remain p = 0) \/
  (d_needFlush p = false /\ ((exists z0 z, Flow pr p r o z0 z) \/ exists z0 z k, Over pr p r o z0 z k)).
Proof.
  intros Hp [Q1 Q2 Q3 Q4 Q5 Q6 Q7 Q8 Q9 Q10|z Q1 Q2 Q3 Q4 Q5 Q6 Q7 Q8 Q9 Q10 Q11 Q12 Q13|z0 z Q1 Q2 Q3 Q4 Q5 Q6 Q7 Q8 Qx|z0 z k Q1 Q2 Q3 Q4 Q5 Q6 Q7 Q8 Q9 Q10 Q11].
  - left. auto.
  - right. split; [exact Q2|]. left. exists z, z. destruct (start_inv _ _ _ Hp Q7) as (I & O & _). constructor; try assumption; try (rewrite Q4; lia); try apply Steps0.
    + rewrite Q8, Q5. reflexivity.
    + rewrite Q5. reflexivity.
    + exists []. rewrite O, Q6, Q4. split; reflexivity.
    + congruence.
  - right. split; [exact Q2|]. left. exists z0, z. destruct (start_inv _ _ _ Hp Q4) as (I & _). destruct (steps_inv _ _ _ I Q5) as (Iz & _). constructor; try assumption.
    + exact (dz_code _ _ (st_dz _ _ _ Q6)).
    + destruct (d_temp p) as [|b t] eqn:Et; [reflexivity|]. destruct (Q8 ltac:(discriminate)) as (_ & Q). rewrite <- Q7. destruct (Z.lt_ge_cases (zlen (k_in (z_coder z))) 20) as [L|L]; [exact L|exfalso]. exact (enough_input _ _ (zi_good _ _ Iz) (zi_normal _ _ Iz) L Q).
    + exact (st_len _ _ _ Q6).
    + pose proof (st_out _ _ _ Q6) as E. pose proof (st_len _ _ _ Q6). destruct (copy_app (Z.to_nat (d_remain p)) (z_rep0 z) o) as (w & E2 & L & _). exists w. split; [congruence|lia].
  - right. split; [exact Q2|]. right. exists z0, z, k. constructor; assumption.
Qed.
(** with more input *)
Lemma prefix_trans {A} (a b c : list A) : prefix a b -> prefix b c -> prefix a c.
Proof. intros (u & ->) (v & ->). exists (u ++ v). symmetry. apply app_assoc. Qed.
Lemma reach_output p t o : lzprops_ok p -> reach p t o -> prefix o (lz_output p t).
Proof.
  intros Hp [->|(z0 & z & E & H & P)]; [eexists; reflexivity|]. destruct (output_steps _ _ _ _ Hp E H) as (y & Hy & ->). apply (prefix_trans _ _ _ P). destruct (start_inv p _ _ Hp E) as (I & _). destruct (steps_inv _ _ _ I H) as (Iz & _). destruct (steps_inv _ _ _ Iz Hy) as (_ & W & _). exact W.
Qed.
Lemma inv_reach pr p r o t : lzprops_ok (px pr) -> INV pr p r o -> reach (px pr) (r ++ t) o.
Proof.
  intros Hp H. destruct (inv_view _ _ _ _ Hp H) as [(_ & _ & -> & _)|(_ & [(z0 & z & F)|(z0 & z & k & F)])]; [left; reflexivity|right|right].
  - exists (morez z0 t), (morez z t). split; [apply start_more, F|]. split; [apply steps_more, F|]. destruct (fl_out _ _ _ _ _ _ F) as (w & E & _). exists w. exact E.
  - exists (morez z0 t), (morez z t). split; [apply start_more, F|]. split; [apply steps_more, F|]. exists []. cbn. rewrite (ov_out _ _ _ _ _ _ _ F), app_nil_r. reflexivity.
Qed.
(** the bytes that are kept back follow complete data *)
Lemma flow_unmarked pr p r o z0 z : lzprops_ok (px pr) -> Flow pr p r o z0 z -> d_remain p = 0 -> d_code p = 0 ->
  exists c, r = c ++ d_temp p /\ lz_unmarked_data (px pr) c o.
Proof.
  intros Hp [F1 F2 F3 F4 F5 F6 F7 F8 _] Hr Hc. destruct (start_inv _ _ _ Hp F1) as (I & O & (u & Eu & Lu)). destruct (steps_inv _ _ _ I F2) as (Iz & _ & (v & Ev)). rewrite F4 in Ev.
  assert (r = (u ++ v) ++ d_temp p) as Er by (rewrite <- app_assoc, <- Ev; exact Eu). exists (u ++ v). split; [exact Er|].
  assert (exists s, start (u ++ v) = Some s /\ z0 = morez s (d_temp p)) as (s & Es & ->).
  { assert (5 <= zlen (u ++ v)) as L by (rewrite zlen_app; pose proof (zlen_nonneg v); lia). rewrite Er in F1. revert F1 L. clear. destruct (u ++ v) as [|b0 [|b1 [|b2 [|b3 [|b4 t]]]]]; intros F1 L; try (cbn in L; unfold zlen in L; cbn in L; lia). cbn [app start] in *. destruct (b0 mod 256 =? 0); [|discriminate]. injection F1 as <-. eexists. split; reflexivity. }
  destruct (steps_less _ _ _ _ (inv_morez _ _ _ I) F2 ltac:(rewrite F4; lia)) as (y & -> & Hy). exists s, y. split; [exact Es|]. split; [exact Hy|]. destruct F7 as (w & E & L). split; [|split].
  - cbn [morez z_out] in E. rewrite E. destruct w; [apply app_nil_r|]. rewrite zlen_cons in L. pose proof (zlen_nonneg w). lia.
  - cbn [morez more z_coder k_in] in F4. apply (f_equal zlen) in F4. rewrite zlen_app in F4. destruct (k_in (z_coder y)) as [|b t]; [reflexivity|exfalso]. rewrite zlen_cons in F4. pose proof (zlen_nonneg t). lia.
  - cbn [morez more z_coder k_code] in F3. congruence.
Qed.
