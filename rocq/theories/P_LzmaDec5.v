(** One symbol: a round of LzmaDec_DecodeReal, and the dry run. *)
From Verif Require Import Base LzmaFormatSpec P_LzmaFormat P_LzmaFormat2 M_LzmaDec P_LzmaDec1 P_LzmaDec2 P_LzmaDec3 P_LzmaDec4.

(** as [im], for results in [F] *)
Definition imF {A B} (o : out B) (pg : prog A) (k : coder) (F : A -> Prop) (R : B -> A -> coder -> Prop) : Prop :=
  forall a k', decode pg k = Some (a, k') -> F a -> exists x, o = Ret x /\ R x a k'.
Lemma imF_im {A B} (o : out B) (pg : prog A) k F R : im o pg k R -> imF o pg k F R.
Proof. intros H a k' E _. exact (H a k' E). Qed.
Lemma imF_bind {A B C D} (o : out B) (f : B -> out D) (pg : prog A) (g : A -> prog C) k (F1 : A -> Prop) F R S :
  imF o pg k F1 R -> (forall x a k', R x a k' -> imF (f x) (g a) k' F S) -> (forall a, returns (g a) (fun s => F s -> F1 a)) -> imF (bind o f) (pbind pg g) k F S.
Proof.
  intros H1 H2 HF c k'. rewrite decode_bind. destruct (decode pg k) as [(a, k1)|] eqn:E; [|discriminate]. intros E2 Fc.
  destruct (H1 _ _ E (returns_decode _ _ _ _ _ (HF a) E2 Fc)) as (x & -> & HR). cbn [bind]. exact (H2 _ _ _ HR _ _ E2 Fc).
Qed.
Lemma imF_bind' {A B C D} (o : out B) (f : B -> out D) (pg : prog A) (g : A -> prog C) k F R S :
  im o pg k R -> (forall x a k', R x a k' -> imF (f x) (g a) k' F S) -> imF (bind o f) (pbind pg g) k F S.
Proof.
  intros H1 H2 c k'. rewrite decode_bind. destruct (decode pg k) as [(a, k1)|] eqn:E; [|discriminate]. intros E2 Fc.
  destruct (H1 _ _ E) as (x & -> & HR). cbn [bind]. exact (H2 _ _ _ HR _ _ E2 Fc).
Qed.
Lemma imF_done {A B} (x : B) (a : A) k (F : A -> Prop) (R : B -> A -> coder -> Prop) : (F a -> R x a k) -> imF (Ret x) (Done a) k F R.
Proof. intros H a' k' E HF. injection E as <- <-. eauto. Qed.
Lemma imF_any {A B} (x : B) (pg : prog A) k (F Q : A -> Prop) (R : B -> A -> coder -> Prop) : returns pg Q -> (forall a k', Q a -> R x a k') -> imF (Ret x) pg k F R.
Proof. intros H HR a k' E _. exists x. split; [reflexivity|]. apply HR. exact (returns_decode _ _ _ _ _ H E). Qed.
Lemma bind_assoc {A B C} (a : out A) (f : A -> out B) (g : B -> out C) : bind (bind a f) g = bind a (fun x => bind (f x) g).
Proof. destruct a; reflexivity. Qed.
Lemma decode_norm {A} c (f : bool -> prog A) k k1 : normal k1 -> norm k = Some k1 -> decode (Coded c f) k = decode (Coded c f) k1.
Proof.
  intros N E. cbn [decode]. rewrite E. assert (norm k1 = Some k1) as ->; [|reflexivity]. unfold norm. unfold normal in N. change (2 ^ 24) with 16777216. destruct (Z.ltb_spec (k_range k1) 16777216); [lia|reflexivity].
Qed.
Lemma norm_normal k1 : normal k1 -> norm k1 = Some k1.
Proof. intros N. unfold norm. unfold normal in N. change (2 ^ 24) with 16777216. destruct (Z.ltb_spec (k_range k1) 16777216); [lia|reflexivity]. Qed.

Definition bulk (s : symbol) : Prop := match s with Lit _ | Short => False | _ => True end.
Definition check_ok (pr : props) (check : Z) (o : list Z) : Prop :=
  (check = 0 /\ zlen o < p_dicSize pr) \/ (check = p_dicSize pr /\ p_dicSize pr <= zlen o).

Section Sym.
Variables (pr : props) (check limit : Z).
Hypothesis Hp : lzprops_ok (px pr).
Let p := px pr.
Let D := p_dicSize pr.
Lemma Hl : 0 <= p_lc pr + p_lp pr.
Proof. destruct Hp as (H1 & H2 & _). cbn in *. lia. Qed.

(** the variables and the state of the format: [z] without its coder, everything in [z_out z] written *)
Record VZ (src : list Z) (v : vars) (z : lz) : Prop := {
  vz_inv : zinv p z; vz_ring : Ring D (v_dic v) (v_dicPos v) (z_out z); vz_proc : v_processed v = u32 (zlen (z_out z)); vz_state : v_state v = z_state z;
  vz_rep0 : v_rep0 v = z_rep0 z; vz_rep1 : v_rep1 v = z_rep1 z; vz_rep2 : v_rep2 v = z_rep2 z; vz_rep3 : v_rep3 v = z_rep3 z;
  vz_len : v_len v = 0; vz_check : check_ok pr check (z_out z) }.
(** after a symbol *)
Record VN (src : list Z) (v v' : vars) (k : coder) (z z' : lz) (o : list Z) : Prop := {
  vn_rc : CR pr src (v_rc v') k; vn_ring : Ring D (v_dic v') (v_dicPos v') o; vn_proc : v_processed v' = u32 (zlen o); vn_state : v_state v' = z_state z';
  vn_rep0 : v_rep0 v' = z_rep0 z'; vn_rep1 : v_rep1 v' = z_rep1 z'; vn_rep2 : v_rep2 v' = z_rep2 z'; vn_rep3 : v_rep3 v' = z_rep3 z';
  vn_out : z_out z' = copy (Z.to_nat (v_len v')) (z_rep0 z') o; vn_len : 0 <= v_len v' < 274;
  vn_pos : v_dicPos v' = v_dicPos v + (zlen o - zlen (z_out z)); vn_more : v_dicPos v < v_dicPos v' <= limit; vn_full : v_len v' <> 0 -> v_dicPos v' = limit;
  vn_pre : exists w, o = z_out z ++ w; vn_dist : v_len v' <> 0 -> z_rep0 z' <= zlen o }.
Definition RS (src : list Z) (v : vars) (z : lz) (x : round) (s : symbol) (k : coder) : Prop := forall kn,
  match apply_sym p z s kn with
  | Starved => False
  | Marked _ => exists v', x = Break v' /\ CR pr src (v_rc v') k /\ v_dic v' = v_dic v /\ v_dicPos v' = v_dicPos v /\ v_processed v' = v_processed v /\ 274 <= v_len v' < 546
  | Invalid => exists l, x = Bad l (v_dic v)
  | Next z' => if v_dicPos v =? limit then exists l, x = Bad l (v_dic v)
               else exists v' o, x = Cont v' /\ VN src v v' k z z' o
  end.
Lemma land_pow2 x n : 0 <= n -> Z.land x (Z.shiftl 1 n - 1) = x mod 2 ^ n.
Proof. intros H. rewrite Z.shiftl_mul_pow2 by lia. rewrite Z.mul_1_l. rewrite <- Z.land_ones by lia. f_equal. rewrite Z.ones_equiv. lia. Qed.
Lemma u32_mod x n : 0 <= n <= 32 -> u32 x mod 2 ^ n = x mod 2 ^ n.
Proof.
  intros H. unfold u32. change 4294967296 with (2 ^ 32). replace 32 with (n + (32 - n)) by lia. rewrite Z.pow_add_r by lia.
  assert (0 < 2 ^ n) by (apply Z.pow_pos_nonneg; lia). assert (0 < 2 ^ (32 - n)) by (apply Z.pow_pos_nonneg; lia).
  rewrite Z.rem_mul_r by lia. rewrite Z.mul_comm, Z_mod_plus_full. apply Z.mod_mod. lia.
Qed.
Lemma posState_ok x : Z.land (u32 x) (Z.shiftl 1 (p_pb pr) - 1) = x mod 2 ^ p_pb pr /\ 0 <= x mod 2 ^ p_pb pr < 16.
Proof.
  destruct Hp as (_ & _ & H & _). cbn in H. rewrite land_pow2 by lia. rewrite u32_mod by lia. split; [reflexivity|].
  assert (0 < 2 ^ p_pb pr) by (apply Z.pow_pos_nonneg; lia). assert (2 ^ p_pb pr <= 2 ^ 4) by (apply Z.pow_le_mono_r; lia). change (2 ^ 4) with 16 in *. pose proof (Z.mod_pos_bound x (2 ^ p_pb pr) ltac:(lia)). lia.
Qed.
Definition litctx (o : list Z) : Z := zlen o mod 2 ^ p_lp pr * 2 ^ p_lc pr + (match o with [] => 0 | _ => back 1 o end) / 2 ^ (8 - p_lc pr).
Lemma litctx_range o : Forall is_byte o -> 0 <= litctx o < 2 ^ (p_lc pr + p_lp pr).
Proof.
  intros Hb. unfold litctx. destruct Hp as (H1 & H2 & _). cbn in H1, H2. assert (is_byte (match o with [] => 0 | _ => back 1 o end)) as B by (destruct o; [unfold is_byte; lia|apply back_byte, Hb]). unfold is_byte in B.
  set (b := match o with [] => 0 | _ => back 1 o end) in *. assert (0 < 2 ^ p_lp pr) by (apply Z.pow_pos_nonneg; lia). assert (0 < 2 ^ p_lc pr) by (apply Z.pow_pos_nonneg; lia). assert (0 < 2 ^ (8 - p_lc pr)) by (apply Z.pow_pos_nonneg; lia).
  pose proof (Z.mod_pos_bound (zlen o) (2 ^ p_lp pr) ltac:(lia)). assert (0 <= b / 2 ^ (8 - p_lc pr)) by (apply Z.div_pos; lia).
  assert (b / 2 ^ (8 - p_lc pr) < 2 ^ p_lc pr) by (apply Z.div_lt_upper_bound; [lia|]; rewrite <- Z.pow_add_r by lia; replace (8 - p_lc pr + p_lc pr) with 8 by lia; change (2 ^ 8) with 256; lia).
  rewrite Z.pow_add_r by lia. nia.
Qed.
Lemma check_first o : check_ok pr check o -> (check =? 0) && (u32 (zlen o) =? 0) = match o with [] => true | _ => false end.
Proof.
  intros Hc. destruct Hp as (_ & _ & _ & Hd). cbn in Hd. pose proof (zlen_nonneg o). destruct Hc as [(-> & Hc)|(-> & Hc)].
  - rewrite u32_id by lia. destruct o as [|b o]; [reflexivity|]. rewrite zlen_cons in *. pose proof (zlen_nonneg o). cbn [Z.eqb andb]. destruct (Z.eqb_spec (1 + zlen o) 0); [lia|]. reflexivity.
  - destruct (Z.eqb_spec (p_dicSize pr) 0); [lia|]. cbn [andb]. destruct o as [|b o]; [change (zlen (@nil Z)) with 0 in *; lia|reflexivity].
Qed.
Lemma literal_probs_ok dic dicPos o : Ring D dic dicPos o -> check_ok pr check o -> literal_probs pr check (u32 (zlen o)) dic dicPos = Ret (Literal + 768 * litctx o).
Proof.
  intros R Hc. unfold literal_probs. pose proof (check_first o Hc) as E. rewrite <- negb_andb, E. destruct Hp as (H1 & H2 & _ & Hd). cbn in H1, H2, Hd. destruct o as [|b o].
  - cbn [negb]. unfold litctx. change (zlen (@nil Z)) with 0. rewrite Zmod_0_l, Zdiv_0_l. reflexivity.
  - cbn [negb]. pose proof (zlen_nonneg o). pose proof (rg_pos _ _ _ _ R) as Pp. pose proof (rg_get _ _ _ _ R 1) as G. unfold back_pos in G. unfold dget. rewrite (rg_len _ _ _ _ R).
    assert ((if dicPos =? 0 then D else dicPos) - 1 = dicPos - 1 + (if dicPos <? 1 then D else 0)) as -> by (destruct (Z.eqb_spec dicPos 0), (Z.ltb_spec dicPos 1); lia).
    rewrite G by (rewrite ?zlen_cons; subst D; lia). cbn [bind]. unfold litctx. rewrite land_pow2 by lia. rewrite u32_mod by lia. rewrite Z.shiftl_mul_pow2 by lia. rewrite Z.shiftr_div_pow2 by lia. reflexivity.
Qed.
Lemma next_state_ok s : 0 <= s < 12 -> aget kLiteralNextStates s = Ret (after_literal s).
Proof.
  intros H. assert (In s [0;1;2;3;4;5;6;7;8;9;10;11]) as Hi by (cbn; lia). cbn [In] in Hi. repeat destruct Hi as [<-|Hi]; try reflexivity. contradiction.
Qed.
(** LzmaDec.c:392-421 *)
Definition copy_part (v : vars) (r : rc) (st rep0 rep1 rep2 rep3 len : Z) : out round :=
  if limit =? v_dicPos v then Ret (Bad (r_probs r) (v_dic v))
  else
    let rem := limit - v_dicPos v in
    let curLen := if rem <? len then u32 rem else len in
    let pos := back_pos (zlen (v_dic v)) (v_dicPos v) rep0 in
    if curLen =? 0 then Hang
    else
      let* dic := if pos + curLen <=? zlen (v_dic v) then copy_plain (Z.to_nat curLen) (v_dic v) (v_dicPos v) pos
                  else copy_wrap (Z.to_nat curLen) (v_dic v) (v_dicPos v) pos in
      Ret (Cont (mkVars r dic (v_dicPos v + curLen) (u32 (v_processed v + curLen)) st rep0 rep1 rep2 rep3 (len - curLen))).
Lemma u32_add a b : u32 (u32 a + b) = u32 (a + b).
Proof. unfold u32. apply Zplus_mod_idemp_l. Qed.
Lemma copy_part_ok src v z z' r k len : VZ src v z -> CR pr src r k -> v_dicPos v <= limit <= D -> 2 <= len <= 273 -> z_out z <> [] ->
  rep_ok p (z_out z) (z_rep0 z') -> z_out z' = copy (Z.to_nat len) (z_rep0 z') (z_out z) ->
  exists x, copy_part v r (z_state z') (z_rep0 z') (z_rep1 z') (z_rep2 z') (z_rep3 z') len = Ret x /\
    if v_dicPos v =? limit then exists l, x = Bad l (v_dic v) else exists v' o, x = Cont v' /\ VN src v v' k z z' o.
Proof.
  intros V C Hlim Hlen Hne (Hr1 & Hr2) Eo. unfold copy_part. rewrite (Z.eqb_sym limit). destruct (Z.eqb_spec (v_dicPos v) limit) as [Q|Q]; [eexists; split; [reflexivity|eexists; reflexivity]|].
  destruct Hp as (_ & _ & _ & Hd). cbn in Hd, Hr1. fold D in Hd, Hr1. assert (0 < zlen (z_out z)) as Hz by (destruct (z_out z) as [|b o]; [contradiction|rewrite zlen_cons; pose proof (zlen_nonneg o); lia]).
  pose proof (vz_ring _ _ _ V) as R. pose proof (rg_pos _ _ _ _ R) as Pp. rewrite (rg_len _ _ _ _ R).
  assert ((if limit - v_dicPos v <? len then u32 (limit - v_dicPos v) else len) = Z.min len (limit - v_dicPos v)) as -> by (destruct (Z.ltb_spec (limit - v_dicPos v) len); [rewrite u32_id by lia|]; lia).
  set (cur := Z.min len (limit - v_dicPos v)). assert (1 <= cur <= len /\ cur <= limit - v_dicPos v /\ (cur < len -> cur = limit - v_dicPos v)) as Hcur by lia. clearbody cur. destruct (Z.eqb_spec cur 0); [lia|].
  assert (exists dic', (if back_pos D (v_dicPos v) (z_rep0 z') + cur <=? D then copy_plain (Z.to_nat cur) (v_dic v) (v_dicPos v) (back_pos D (v_dicPos v) (z_rep0 z'))
     else copy_wrap (Z.to_nat cur) (v_dic v) (v_dicPos v) (back_pos D (v_dicPos v) (z_rep0 z'))) = Ret dic' /\ Ring D dic' (v_dicPos v + cur) (copy (Z.to_nat cur) (z_rep0 z') (z_out z))) as (dic' & -> & R').
  { replace (v_dicPos v + cur) with (v_dicPos v + Z.of_nat (Z.to_nat cur)) by lia. destruct (Z.leb_spec (back_pos D (v_dicPos v) (z_rep0 z') + cur) D); [apply copy_plain_ok|apply copy_wrap_ok]; try assumption; try lia; auto. }
  cbn [bind]. eexists; split; [reflexivity|]. eexists _, _. split; [reflexivity|].
  constructor; cbn [v_rc v_dic v_dicPos v_processed v_state v_rep0 v_rep1 v_rep2 v_rep3 v_len]; try reflexivity; try lia.
  - exact C.
  - exact R'.
  - rewrite (vz_proc _ _ _ V), u32_add, zlen_copy. f_equal. lia.
  - rewrite Eo, <- copy_add. f_equal. lia.
  - rewrite zlen_copy. lia.
  - destruct (copy_app (Z.to_nat cur) (z_rep0 z') (z_out z)) as (w & -> & _). eexists; reflexivity.
  - intros _. rewrite zlen_copy. lia.
Qed.
Lemma round_ok src v k z : VZ src v z -> CR pr src (v_rc v) k -> v_dicPos v <= limit <= D ->
  imF (decode_round src pr check limit v) (next_sym p z) k (fun s => v_dicPos v < limit \/ bulk s) (RS src v z).
Proof.
  intros V C Hlim. pose proof Hl as Hl'. pose proof V as [I R Pr St R0 R1 R2 R3 Ln Ck]. unfold decode_round, next_sym. cbv zeta. rewrite Pr, St. destruct (posState_ok (zlen (z_out z))) as (-> & Hpos).
  change (x_pb p) with (p_pb pr). change (x_lp p) with (p_lp pr). change (x_lc p) with (p_lc pr). fold (litctx (z_out z)). set (pos := zlen (z_out z) mod 2 ^ p_pb pr) in *. pose proof (zi_state _ _ I) as Hst.
  pose proof (litctx_range (z_out z) (zi_bytes _ _ I)) as Hlit.
  assert (forall d, rep_ok p (z_out z) d -> z_out z <> [] -> 1 <= d <= zlen (z_out z) /\ d <= D) as HR.
  { intros d (Q1 & Q2) Hne. change (x_dict p) with D in Q1. destruct (z_out z) as [|b o]; [contradiction|]. rewrite zlen_cons in *. pose proof (zlen_nonneg o). lia. }
  unfold sym. apply (imF_bind' _ _ _ _ _ _ (RB pr src)); [apply (bit_at pr src Hl'); [split; [exact Hst|exact Hpos]|cbn [idx]; change IsMatch with 0; lia|exact C]|].
  intros (r1, m) m' k1 (C1 & E). cbn [fst snd] in *. subst m'. destruct m; cbn [negb].
  - (* a match *)
    apply (imF_bind' _ _ _ _ _ _ (RB pr src)); [apply (bit_at pr src Hl'); [exact Hst|cbn [idx]; change IsRep with 192; lia|exact C1]|].
    intros (r2, rep) rep' k2 (C2 & E). cbn [fst snd] in *. subst rep'. destruct rep; cbn [negb].
    + (* a repetition *)
      rewrite (check_first _ Ck). destruct (z_out z) as [|b0 o0] eqn:Eo.
      { cbn [bind]. apply (imF_any _ _ _ _ (fun s => match s with Short | Again _ _ => True | _ => False end)).
        - cbn [one pbind returns]. intros g. apply (returns_bind _ _ (fun _ => True)); [apply returns_any|]. intros [w|] _; [|exact Logic.I]. apply (returns_bind _ _ (fun _ => True)); [apply returns_any|]. intros l _. exact Logic.I.
        - intros s k' Hs kn. unfold apply_sym. rewrite Eo. destruct s; try contradiction; eexists; reflexivity. }
      rewrite <- Eo in *. assert (z_out z <> []) as Hne by (rewrite Eo; discriminate).
      assert (forall A (a b : A), match z_out z with [] => a | _ :: _ => b end = b) as HM by (intros; rewrite Eo; reflexivity).
      rewrite bind_assoc. apply (imF_bind' _ _ _ _ _ _ (RB pr src)); [apply (bit_at pr src Hl'); [exact Hst|cbn [idx]; change IsRepG0 with 204; lia|exact C2]|].
      intros (r3, g0) g0' k3 (C3 & E). cbn [fst snd] in *. subst g0'. rewrite bind_assoc.
      apply (imF_bind _ _ _ _ _ (fun w => w = None -> v_dicPos v < limit) _ (fun rr w k4 =>
        match w with
        | None => exists r dic, CR pr src r k4 /\ Ring D dic (v_dicPos v + 1) (z_out z ++ [back (z_rep0 z) (z_out z)]) /\ v_dicPos v < limit /\
            rr = inr (Cont (mkVars r dic (v_dicPos v + 1) (u32 (u32 (zlen (z_out z)) + 1)) (if z_state z <? 7 then 9 else 11) (v_rep0 v) (v_rep1 v) (v_rep2 v) (v_rep3 v) (v_len v)))
        | Some w => exists r, CR pr src r k4 /\ 0 <= w <= 3 /\
            rr = inl (if w =? 0 then (r, z_rep0 z, z_rep1 z, z_rep2 z, z_rep3 z) else if w =? 1 then (r, z_rep1 z, z_rep0 z, z_rep2 z, z_rep3 z)
                      else if w =? 2 then (r, z_rep2 z, z_rep0 z, z_rep1 z, z_rep3 z) else (r, z_rep3 z, z_rep0 z, z_rep1 z, z_rep2 z))
        end)).
      * destruct g0; cbn [negb].
        -- apply (imF_bind' _ _ _ _ _ _ (RB pr src)); [apply (bit_at pr src Hl'); [exact Hst|cbn [idx]; change IsRepG1 with 216; lia|exact C3]|].
           intros (r4, g1) g1' k4 (C4 & E). cbn [fst snd] in *. subst g1'. destruct g1; cbn [negb].
           ++ apply (imF_bind' _ _ _ _ _ _ (RB pr src)); [apply (bit_at pr src Hl'); [exact Hst|cbn [idx]; change IsRepG2 with 228; lia|exact C4]|].
              intros (r5, g2) g2' k5 (C5 & E). cbn [fst snd] in *. subst g2'. destruct g2; cbn [negb]; apply imF_done; intros _; exists r5; (split; [exact C5|]); (split; [lia|]); rewrite R0, R1, R2, R3; reflexivity.
           ++ apply imF_done. intros _. exists r4. split; [exact C4|]. split; [lia|]. rewrite R0, R1, R2, R3; reflexivity.
        -- apply (imF_bind _ _ _ _ _ (fun l => l = false -> v_dicPos v < limit) _ (RB pr src)).
           ++ apply imF_im. apply (bit_at pr src Hl'); [split; [exact Hst|exact Hpos]|cbn [idx]; change IsRep0Long with 240; lia|exact C3].
           ++ intros (r4, long) long' k4 (C4 & E). cbn [fst snd] in *. subst long'. destruct long; cbn [negb].
              ** apply imF_done. intros _. exists r4. split; [exact C4|]. split; [lia|]. rewrite R0, R1, R2, R3; reflexivity.
              ** intros a k' Ed HF. cbn [decode] in Ed. injection Ed as <- <-. specialize (HF eq_refl). rewrite R0. destruct (HR _ (zi_rep0 _ _ I) Hne) as (H1 & H2).
                 rewrite (ring_get _ _ _ _ _ R H1 H2). cbn [bind]. destruct (ring_write _ _ _ _ (back (z_rep0 z) (z_out z)) R ltac:(lia)) as (-> & R'). cbn [bind].
                 eexists; split; [reflexivity|]. eexists _, _. split; [exact C4|]. split; [exact R'|]. split; [exact HF|reflexivity].
           ++ intros l. cbn [returns]. intros H ->. exact (H eq_refl).
      * intros rr w k4. destruct w as [w|].
        -- intros (r4 & C4 & Hw & ->). 
           set (q := if w =? 0 then (z_rep0 z, z_rep1 z, z_rep2 z, z_rep3 z) else if w =? 1 then (z_rep1 z, z_rep0 z, z_rep2 z, z_rep3 z) else if w =? 2 then (z_rep2 z, z_rep0 z, z_rep1 z, z_rep3 z) else (z_rep3 z, z_rep0 z, z_rep1 z, z_rep2 z)).
           assert ((if w =? 0 then (r4, z_rep0 z, z_rep1 z, z_rep2 z, z_rep3 z) else if w =? 1 then (r4, z_rep1 z, z_rep0 z, z_rep2 z, z_rep3 z)
                      else if w =? 2 then (r4, z_rep2 z, z_rep0 z, z_rep1 z, z_rep3 z) else (r4, z_rep3 z, z_rep0 z, z_rep1 z, z_rep2 z)) = (r4, fst (fst (fst q)), snd (fst (fst q)), snd (fst q), snd q)) as ->.
           { subst q. destruct (w =? 0); [reflexivity|]. destruct (w =? 1); [reflexivity|]. destruct (w =? 2); reflexivity. }
           rewrite bind_assoc. apply (imF_bind' _ _ _ _ _ _ (fun x a k' => RZ pr src x a k' /\ 0 <= a < 272)); [apply (len_ok pr src Hl' true pos); [exact Hpos|exact C4]|].
           intros (r5, l) l' k5 ((C5 & E) & Hlen). cbn [fst snd] in *. subst l'. cbn [bind]. assert ((12 <=? (if z_state z <? 7 then 8 else 11)) = false) as -> by (destruct (z_state z <? 7); reflexivity). cbn [bind].
           intros a k' Ed _. cbn [decode] in Ed. assert (a = Again w (l + 2) /\ k' = k5) as (-> & ->) by (split; congruence).
           destruct (copy_part_ok src v z (mkLz k5 (if z_state z <? 7 then 8 else 11) (fst (fst (fst q))) (snd (fst (fst q))) (snd (fst q)) (snd q) (copy (Z.to_nat (l + 2)) (fst (fst (fst q))) (z_out z))) r5 k5 (l + 2) V C5 Hlim ltac:(lia) Hne) as (x & Ex & HX).
           { cbn [z_rep0]. subst q. destruct (w =? 0); [apply (zi_rep0 _ _ I)|]. destruct (w =? 1); [apply (zi_rep1 _ _ I)|]. destruct (w =? 2); [apply (zi_rep2 _ _ I)|apply (zi_rep3 _ _ I)]. }
           { reflexivity. }
           cbn [z_rep0 z_rep1 z_rep2 z_rep3 z_state] in Ex. unfold copy_part in Ex. rewrite Pr in Ex. exists x. split; [exact Ex|]. intros kn. unfold apply_sym. rewrite HM.
           fold q. destruct q as (((d0, d1), d2), d3). cbn [fst snd] in HX. destruct (v_dicPos v =? limit); [exact HX|]. destruct HX as (v' & o & -> & N). exists v', o. split; [reflexivity|].
           destruct N. constructor; assumption.
        -- intros (r4 & dic & C4 & R4 & Hlt & ->). cbn [bind]. apply imF_done. intros _ kn. unfold apply_sym. rewrite HM. destruct (Z.eqb_spec (v_dicPos v) limit); [lia|].
           eexists _, _. split; [reflexivity|]. constructor; cbn [v_rc v_dic v_dicPos v_processed v_state v_rep0 v_rep1 v_rep2 v_rep3 v_len z_state z_rep0 z_rep1 z_rep2 z_rep3 z_out]; try assumption; try reflexivity; try lia.
           ++ exact R4.
           ++ rewrite u32_add, zlen_app. reflexivity.
           ++ rewrite Ln. reflexivity.
           ++ rewrite zlen_app. change (zlen [back (z_rep0 z) (z_out z)]) with 1. lia.
           ++ eexists; reflexivity.
      * intros [w|]; [|cbn [returns bulk]; intros [H|[]] _; exact H]. apply (returns_bind _ _ (fun _ => True)); [apply returns_any|]. intros l _. cbn [returns]. discriminate.
    + (* a new distance *)
      rewrite bind_assoc. apply (imF_bind' _ _ _ _ _ _ (fun x a k' => RZ pr src x a k' /\ 0 <= a < 272)); [apply (len_ok pr src Hl' false pos); [exact Hpos|exact C2]|].
      intros (r3, l) l' k3 ((C3 & E) & Hlen). cbn [fst snd] in *. subst l'. cbn [bind]. destruct (Z.leb_spec 12 (z_state z + 12)); [|lia]. rewrite bind_assoc.
      apply (imF_bind' _ _ _ _ _ _ (fun x a k' => RZ pr src x a k' /\ 0 <= a <= 4294967295)); [apply im_returns; [apply (distance_ok pr src Hl'); [lia|exact C3]|apply returns_distance]|].
      intros (r4, d) d' k4 ((C4 & E) & Hdist). cbn [fst snd] in *. subst d'. intros a k' Ed _. cbn [decode] in Ed. destruct (Z.eqb_spec d 4294967295) as [Q|Q].
      * cbn [bind]. assert (a = EndMark /\ k' = k4) as (-> & ->) by (split; congruence). eexists; split; [reflexivity|]. intros kn. cbn [apply_sym]. eexists; split; [reflexivity|]. cbn [v_rc v_dic v_dicPos v_processed v_len].
        change kMatchSpecLenStart with 274. split; [exact C4|]. split; [reflexivity|]. split; [reflexivity|]. split; [symmetry; exact Pr|lia].
      * assert (a = New (l + 2) (d + 1) /\ k' = k4) as (-> & ->) by (split; congruence).
        assert ((if check =? 0 then u32 (zlen (z_out z)) <=? d else check <=? d) = negb ((d + 1 <=? zlen (z_out z)) && (d + 1 <=? x_dict p))) as ->.
        { change (x_dict p) with D. destruct Hp as (_ & _ & _ & Hd). cbn in Hd. fold D in Hd. pose proof (zlen_nonneg (z_out z)). destruct Ck as [(-> & Hc)|(-> & Hc)]; fold D in Hc |- *.
          - rewrite u32_id by lia. cbn [Z.eqb]. destruct (Z.leb_spec (zlen (z_out z)) d), (Z.leb_spec (d + 1) (zlen (z_out z))), (Z.leb_spec (d + 1) D); try lia; reflexivity.
          - destruct (Z.eqb_spec D 0); [lia|]. destruct (Z.leb_spec D d), (Z.leb_spec (d + 1) (zlen (z_out z))), (Z.leb_spec (d + 1) D); try lia; reflexivity. }
        destruct ((d + 1 <=? zlen (z_out z)) && (d + 1 <=? x_dict p)) eqn:Ev; cbn [negb bind].
        -- apply andb_true_iff in Ev. destruct Ev as (E1 & E2). apply Z.leb_le in E1. apply Z.leb_le in E2.
           assert (z_out z <> []) as Hne by (intros Q2; rewrite Q2 in E1; change (zlen (@nil Z)) with 0 in E1; lia).
           rewrite R0, R1, R2. rewrite (u32_id (d + 1)) by lia.
           destruct (copy_part_ok src v z (mkLz k4 (if z_state z + 12 <? 19 then 7 else 10) (d + 1) (z_rep0 z) (z_rep1 z) (z_rep2 z) (copy (Z.to_nat (l + 2)) (d + 1) (z_out z))) r4 k4 (l + 2) V C4 Hlim ltac:(lia) Hne) as (x & Ex & HX).
           { cbn [z_rep0]. split; [lia|]. lia. }
           { reflexivity. }
           cbn [z_rep0 z_rep1 z_rep2 z_rep3 z_state] in Ex. unfold copy_part in Ex. rewrite Pr in Ex. exists x. split; [exact Ex|]. intros kn. cbn [apply_sym].
           destruct (Z.leb_spec (d + 1) (zlen (z_out z))); [|lia]. destruct (Z.leb_spec (d + 1) (x_dict p)); [|lia]. cbn [andb].
           destruct (v_dicPos v =? limit); [exact HX|]. destruct HX as (v' & o & -> & N). exists v', o. split; [reflexivity|].
           destruct N. constructor; try assumption. cbn [z_state] in *. rewrite vn_state0. destruct (Z.ltb_spec (z_state z + 12) 19), (Z.ltb_spec (z_state z) 7); try lia; reflexivity.
        -- eexists; split; [reflexivity|]. intros kn. cbn [apply_sym]. rewrite Ev. eexists; reflexivity.
  - (* a literal *)
    rewrite (literal_probs_ok _ _ _ R Ck). cbn [bind]. intros a k' Ed HF. rewrite decode_bind in Ed.
    destruct (decode (match (if z_state z <? 7 then None else Some (back (z_rep0 z) (z_out z))) with Some e => matched (litctx (z_out z)) e 8 1 | None => plain (litctx (z_out z)) 8 1 end) k1) as [(b, k2)|] eqn:Eb; [|discriminate].
    cbn [decode] in Ed. assert (a = Lit b /\ k' = k2) as (-> & ->) by (split; congruence). destruct HF as [HF|[]].
    assert (exists x, (if z_state z <? 7 then tree_loop src 8 (Literal + 768 * litctx (z_out z)) 256 1 r1
       else let* mb := dget (v_dic v) (back_pos (zlen (v_dic v)) (v_dicPos v) (v_rep0 v)) in matched_loop src 8 (Literal + 768 * litctx (z_out z)) mb 256 1 r1) = Ret x /\ CR pr src (fst x) k2 /\ b = snd x - 256 /\ 256 <= snd x < 512) as ((r2, sy) & -> & C2 & Hb & Hs).
    { destruct (Z.ltb_spec (z_state z) 7) as [Q|Q]; [exact (literal_ok pr src Hl' _ _ _ Hlit C1 _ _ Eb)|].
      assert (z_out z <> []) as Hne by (intros Q2; pose proof (zi_first _ _ I Q2); lia). rewrite R0. destruct (HR _ (zi_rep0 _ _ I) Hne) as (H1 & H2). rewrite (ring_get _ _ _ _ _ R H1 H2). cbn [bind].
      pose proof (matched_ok pr src Hl' (litctx (z_out z)) (back (z_rep0 z) (z_out z)) Hlit 8 8 0 1 r1 k1 ltac:(lia) ltac:(lia) ltac:(lia) ltac:(lia) ltac:(cbn; lia) ltac:(cbn; lia) C1 _ _ Eb) as H. rewrite Z.mul_1_r in H. exact H. }
    cbn [bind fst snd] in *. destruct (ring_write _ _ _ _ (sy mod 256) R ltac:(lia)) as (-> & R'). cbn [bind]. rewrite next_state_ok by exact Hst. cbn [bind]. eexists; split; [reflexivity|]. intros kn. cbn [apply_sym]. destruct (Z.eqb_spec (v_dicPos v) limit); [lia|].
    assert (sy mod 256 = b) as Eb2 by (subst b; symmetry; apply (Z.mod_unique _ _ 1); lia). rewrite Eb2 in R'.
    eexists _, _. split; [reflexivity|]. constructor; cbn [v_rc v_dic v_dicPos v_processed v_state v_rep0 v_rep1 v_rep2 v_rep3 v_len z_state z_rep0 z_rep1 z_rep2 z_rep3 z_out]; try assumption; try reflexivity; try lia.
    + rewrite Eb2. exact R'.
    + rewrite u32_add, zlen_app. reflexivity.
    + rewrite Ln. reflexivity.
    + rewrite zlen_app. change (zlen [b]) with 1. lia.
    + eexists; reflexivity.
Qed.
End Sym.
