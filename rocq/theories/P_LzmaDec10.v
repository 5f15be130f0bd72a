(** LzmaDec_DecodeToDic: the state between calls, and what a call does. *)
From Verif Require Import Base InflateSpec LzmaFormatSpec P_LzmaFormat P_LzmaFormat2 M_LzmaDec P_LzmaDec1 P_LzmaDec2 P_LzmaDec3 P_LzmaDec4 P_LzmaDec5 P_LzmaDec6 P_LzmaDec7 P_LzmaDec8 P_LzmaDec9.

(** [r]: the bytes that were taken, [o]: the bytes that were written *)
Inductive INV (pr : props) (p : dec) (r o : list Z) : Prop :=
| I_Pre : d_prop p = pr -> d_needFlush p = true -> d_needInit p = true -> d_remain p = 0 -> d_temp p = r -> zlen r < 5 -> o = [] ->
    d_check p = 0 -> d_processed p = 0 -> Ring (p_dicSize pr) (d_dic p) (d_dicPos p) [] -> INV pr p r o
| I_Fresh z : d_prop p = pr -> d_needFlush p = false -> d_needInit p = true -> d_remain p = 0 -> d_temp p = [] -> o = [] ->
    start r = Some z -> k_in (z_coder z) = [] -> d_range p = k_range (z_coder z) -> d_code p = k_code (z_coder z) ->
    d_check p = 0 -> d_processed p = 0 -> Ring (p_dicSize pr) (d_dic p) (d_dicPos p) [] -> INV pr p r o
| I_Run z0 z : d_prop p = pr -> d_needFlush p = false -> d_needInit p = false ->
    start r = Some z0 -> steps (px pr) z0 z -> ST p z o -> k_in (z_coder z) = d_temp p -> (d_temp p <> [] -> d_remain p = 0 /\ decoded (px pr) z = None) ->
    (d_remain p <> 0 -> exists y, steps (px pr) z0 y /\ step (px pr) y = Next z /\ zlen (z_out y) < zlen o) -> INV pr p r o
| I_End z0 z k : d_prop p = pr -> d_needFlush p = false -> d_remain p = 274 -> d_temp p = [] ->
    start r = Some z0 -> steps (px pr) z0 z -> step (px pr) z = Marked k -> k_in k = [] -> d_code p = k_code k -> z_out z = o ->
    Ring (p_dicSize pr) (d_dic p) (d_dicPos p) o -> INV pr p r o.

Definition reach (p : lzprops) (t o : list Z) : Prop := o = [] \/ exists z0 z, start t = Some z0 /\ steps p z0 z /\ prefix o (z_out z).
Definition RESULT (pr : props) (limit : Z) (fin : bool) (dp : Z) (r src o : list Z) (n : Z) (x : dec * Z * bool * lstatus) : Prop :=
  let '(p', n', ok, st) := x in
  exists used rest w, src = used ++ rest /\ n' = n + zlen used /\ d_dicPos p' = dp + zlen w /\ d_dicPos p' <= limit /\
  if ok then
    INV pr p' (r ++ used) (o ++ w) /\
    match st with
    | SFinishedWithMark => d_remain p' = 274 /\ d_code p' = 0
    | SNeedsMoreInput => rest = [] /\ lz_starving (px pr) (r ++ used) (o ++ w) /\ d_remain p' = 0 /\ (d_dicPos p' = limit -> d_code p' <> 0 \/ d_needFlush p' = true)
    | SMaybeFinished => d_dicPos p' = limit /\ d_remain p' = 0 /\ d_code p' = 0 /\ d_needFlush p' = false
    | SNotFinished => d_dicPos p' = limit /\ fin = false /\ d_remain p' < 274 /\ d_needFlush p' = false /\ ~ (d_remain p' = 0 /\ d_code p' = 0)
    | SNotSpecified => False
    end
  else
    (exists e pos, Ring (p_dicSize pr) (d_dic p') pos (o ++ w ++ e) /\ pos = d_dicPos p' + zlen e /\ pos <= limit /\ reach (px pr) (r ++ src) (o ++ w ++ e)) /\
    (lz_wrong (px pr) (r ++ src) (zlen o + (limit - dp)) \/ (fin = true /\ d_dicPos p' = limit /\ lz_continues (px pr) (r ++ src) (o ++ w))).
(** more of a result *)
Lemma result_more pr limit fin dp r src o n u s2 w1 x : RESULT pr limit fin (dp + zlen w1) (r ++ u) s2 (o ++ w1) (n + zlen u) x -> src = u ++ s2 -> RESULT pr limit fin dp r src o n x.
Proof.
  intros H ->. destruct x as (((p', n'), ok), st). destruct H as (used & rest & w & E & En & Ed & Hl & H). exists (u ++ used), rest, (w1 ++ w).
  rewrite !zlen_app. split; [rewrite E; apply app_assoc|]. split; [lia|]. split; [lia|]. split; [exact Hl|].
  destruct ok.
  - rewrite <- !app_assoc in H. exact H.
  - rewrite <- !app_assoc in H. destruct H as ((e & pos & H1 & H2) & H3). rewrite zlen_app in H3. replace (zlen o + zlen w1 + (limit - (dp + zlen w1))) with (zlen o + (limit - dp)) in H3 by lia. split; [|exact H3]. exists e, pos. rewrite <- !app_assoc in *. split; assumption.
Qed.

Definition work (f : nat) (p : dec) (dicLimit : Z) (src : list Z) (n : Z) (fin : bool) (st : lstatus) (full : bool) : out (dec * Z * bool * lstatus) :=
  match d_temp p with
  | [] =>
    let* go :=
      if (zlen src <? REQUIRED_INPUT_MAX) || full then
        let* dm := TryDummy p src in
        match dm with
        | DERROR =>
            if REQUIRED_INPUT_MAX <? zlen src then UB
            else Ret (inr (set_temp p src, n + zlen src, true, SNeedsMoreInput))
        | _ => if full && match dm with DMATCH => false | _ => true end then Ret (inr (p, n, false, SNotFinished))
               else Ret (inl 0)
        end
      else Ret (inl (zlen src - REQUIRED_INPUT_MAX)) in
    match go with
    | inr x => Ret x
    | inl bufLimit =>
        let* (p, processed, ok) := DecodeReal2 src p dicLimit 0 bufLimit in
        if negb ok then Ret (p, n, false, st)
        else let* src := advance src processed in
             dic_loop f p dicLimit src (n + processed) fin st
    end
  | _ =>
    let '(temp, lookAhead) := look_ahead (d_temp p) src 0 in
    let p := set_temp p temp in
    let rem := zlen temp in
    let* go :=
      if (rem <? REQUIRED_INPUT_MAX) || full then
        let* dm := TryDummy p temp in
        match dm with
        | DERROR => Ret (inr (p, n + lookAhead, true, SNeedsMoreInput))
        | _ => if full && match dm with DMATCH => false | _ => true end then Ret (inr (p, n, false, SNotFinished))
               else Ret (inl tt)
        end
      else Ret (inl tt) in
    match go with
    | inr x => Ret x
    | inl _ =>
        let* (p, buf, ok) := DecodeReal2 temp p dicLimit 0 0 in
        if negb ok then Ret (p, n, false, st)
        else let lookAhead := u32 (lookAhead - u32 (rem - buf)) in
             let* src := advance src lookAhead in
             dic_loop f (set_temp p []) dicLimit src (n + lookAhead) fin st
    end
  end.
Definition rest_ (f : nat) (p : dec) (dicLimit : Z) (src : list Z) (n : Z) (fin : bool) (st : lstatus) : out (dec * Z * bool * lstatus) :=
  let full := dicLimit <=? d_dicPos p in
  if full && ((d_remain p =? 0) && (d_code p =? 0)) then Ret (p, n, true, SMaybeFinished)
  else if full && negb fin then Ret (p, n, true, SNotFinished)
  else if full && negb (d_remain p =? 0) then Ret (p, n, false, SNotFinished)
  else work f (if d_needInit p then InitStateReal p else p) dicLimit src n fin st full.
Lemma dic_loop_S f p dicLimit src n fin st : dic_loop (S f) p dicLimit src n fin st =
  if d_remain p =? kMatchSpecLenStart then if d_code p =? 0 then Ret (p, n, true, SFinishedWithMark) else Ret (p, n, false, st)
  else
    let* start :=
      if d_needFlush p then
        let '(temp, src, n) := fill_init (d_temp p) src n in
        let p := set_temp p temp in
        if zlen temp <? 5 then Ret (inr (p, n, true, SNeedsMoreInput))
        else
          let* t0 := aget temp 0 in
          if negb (t0 mod 256 =? 0) then Ret (inr (p, n, false, st))
          else let* p := InitRc p temp in Ret (inl (set_temp p [], src, n))
      else Ret (inl (p, src, n)) in
    match start with
    | inr x => Ret x
    | inl (p, src, n) => rest_ f p dicLimit src n fin st
    end.
Proof. reflexivity. Qed.

(** ** Helpers *)
Lemma advance_ok (u v : list Z) : advance (u ++ v) (zlen u) = Ret v.
Proof.
  unfold advance. pose proof (zlen_nonneg u). pose proof (zlen_nonneg v). rewrite zlen_app. destruct (Z.leb_spec 0 (zlen u)); [|lia]. destruct (Z.leb_spec (zlen u) (zlen u + zlen v)); [|lia]. cbn [andb].
  f_equal. unfold zlen. rewrite Nat2Z.id. rewrite skipn_app, skipn_all, Nat.sub_diag. reflexivity.
Qed.
Lemma fill_init_ok : forall src temp n, zlen temp <= 5 -> exists u rest, fill_init temp src n = (temp ++ u, rest, n + zlen u) /\ src = u ++ rest /\ zlen (temp ++ u) <= 5 /\ (zlen (temp ++ u) < 5 -> rest = []).
Proof.
  induction src as [|b src IH]; intros temp n L; cbn [fill_init].
  - exists [], []. rewrite app_nil_r. change (zlen (@nil Z)) with 0. rewrite Z.add_0_r. split; [reflexivity|]. split; [reflexivity|]. split; [exact L|]. intros _; reflexivity.
  - destruct (Z.ltb_spec (zlen temp) 5).
    + destruct (IH (temp ++ [b]) (n + 1)) as (u & rest & -> & -> & H1 & H2). { rewrite zlen_app. change (zlen [b]) with 1. lia. }
      exists (b :: u), rest. rewrite <- app_assoc in *. cbn [app] in *. split; [rewrite zlen_cons; f_equal; lia|]. split; [reflexivity|]. split; assumption.
    + exists [], (b :: src). rewrite app_nil_r. change (zlen (@nil Z)) with 0. rewrite Z.add_0_r. split; [reflexivity|]. split; [reflexivity|]. split; [exact L|]. lia.
Qed.
Lemma look_ahead_ok : forall src temp n, zlen temp <= 20 -> exists u rest, look_ahead temp src n = (temp ++ u, n + zlen u) /\ src = u ++ rest /\ zlen (temp ++ u) <= 20 /\ (zlen (temp ++ u) < 20 -> rest = []).
Proof.
  induction src as [|b src IH]; intros temp n L; cbn [look_ahead].
  - exists [], []. rewrite app_nil_r. change (zlen (@nil Z)) with 0. rewrite Z.add_0_r. split; [reflexivity|]. split; [reflexivity|]. split; [exact L|]. intros _; reflexivity.
  - change REQUIRED_INPUT_MAX with 20. destruct (Z.ltb_spec (zlen temp) 20).
    + destruct (IH (temp ++ [b]) (n + 1)) as (u & rest & -> & -> & H1 & H2). { rewrite zlen_app. change (zlen [b]) with 1. lia. }
      exists (b :: u), rest. rewrite <- app_assoc in *. cbn [app] in *. split; [rewrite zlen_cons; f_equal; lia|]. split; [reflexivity|]. split; assumption.
    + exists [], (b :: src). rewrite app_nil_r. change (zlen (@nil Z)) with 0. rewrite Z.add_0_r. split; [reflexivity|]. split; [reflexivity|]. split; [exact L|]. lia.
Qed.
Lemma start_five t z : start t = Some z -> 5 <= zlen t.
Proof. unfold start. destruct t as [|b0 [|b1 [|b2 [|b3 [|b4 t]]]]]; try discriminate. intros _. rewrite !zlen_cons. pose proof (zlen_nonneg t). lia. Qed.
Lemma set_temp_st p z o t : ST p z o -> ST (set_temp p t) z o.
Proof. intros [S1 S2 S3 S4 S5]. destruct S1. destruct S2. constructor; try assumption; constructor; assumption. Qed.

Lemma set_temp_nil p : d_temp p = [] -> set_temp p [] = p.
Proof. destruct p; cbn; intros ->; reflexivity. Qed.
Lemma nonmatch_step p z s k : decoded p z = Some (s, k) -> kind s <> DMATCH -> step p z = Invalid \/ exists y, step p z = Next y.
Proof.
  intros E H. rewrite step_eq, E. unfold apply_sym. destruct s as [b|l d| |w l|]; cbn in H; try congruence.
  - right. eexists; reflexivity.
  - destruct (z_out z); [left; reflexivity|right; eexists; reflexivity].
  - destruct (z_out z); [left; reflexivity|right]. destruct (w =? 0); [eexists; reflexivity|]. destruct (w =? 1); [eexists; reflexivity|]. destruct (w =? 2); eexists; reflexivity.
Qed.
Lemma step_next_len p z y : zinv p z -> step p z = Next y -> zlen (z_out z) < zlen (z_out y).
Proof. intros I H. destruct (step_next _ _ _ I H) as (_ & (w & -> & L) & _). rewrite zlen_app. lia. Qed.

Section Loop.
Variables (pr : props) (limit : Z) (fin : bool).
Hypothesis Hp : lzprops_ok (px pr).
Hypothesis Hlim : limit <= p_dicSize pr.
Let P := px pr.
Definition IHf (f : nat) : Prop := forall p r o src n st, INV pr p r o -> d_dicPos p <= limit -> (d_remain p <> 0 -> d_remain p <> 274 -> d_dicPos p = limit) -> (Z.to_nat (limit - d_dicPos p) < f)%nat ->
  exists x, dic_loop f p limit src n fin st = Ret x /\ RESULT pr limit fin (d_dicPos p) r src o n x.
Lemma start_steps r z0 z t : start r = Some z0 -> steps P z0 z -> exists z1, start (r ++ t) = Some z1 /\ steps P z1 (morez z t).
Proof. intros H1 H2. exists (morez z0 t). split; [apply start_more, H1|apply steps_more, H2]. Qed.

(** an error: nothing of [src] counts as taken *)
Lemma error_result p p' r o src n st z1 t rest zA : start r <> None -> (exists z0, start (r ++ t) = Some z0 /\ steps P z0 zA) -> src = t ++ rest -> zinv P zA ->
  z_out zA = o -> (exists z2 pos w e, steps P zA z2 /\ z1 = z2 /\ z_out z2 = o ++ w ++ e /\ Ring (p_dicSize pr) (d_dic p') pos (o ++ w ++ e) /\ pos = d_dicPos p' + zlen e /\ pos <= limit /\ d_dicPos p' = d_dicPos p + zlen w /\
     (step P z2 = Invalid \/ (fin = true /\ d_dicPos p' = limit /\ w = [] /\ k_code (z_coder zA) <> 0 /\ exists y, step P zA = Next y))) ->
  RESULT pr limit fin (d_dicPos p) r src o n (p', n, false, st).
Proof.
  intros _ (z0 & S1 & S2) -> I Eo (z2 & pos & w & e & H1 & _ & H2 & H3 & H4 & H5 & H6 & H7). cbn [RESULT]. exists [], (t ++ rest), w. split; [reflexivity|]. split; [change (zlen (@nil Z)) with 0; lia|]. split; [exact H6|]. split; [pose proof (zlen_nonneg e); lia|].
  destruct (start_steps _ _ _ rest S1 S2) as (z3 & T1 & T2). rewrite <- app_assoc in T1. pose proof (steps_more _ _ _ rest H1) as H1'. split.
  - exists e, pos. split; [exact H3|]. split; [exact H4|]. split; [exact H5|]. right. exists z3, (morez z2 rest). split; [exact T1|]. split; [exact (steps_trans _ _ _ _ T2 H1')|]. cbn [morez z_out]. rewrite H2. exists []. rewrite app_nil_r. reflexivity.
  - destruct H7 as [H7|(H7 & H8 & -> & H10 & y & H9)].
    + left. right. exists z3, (morez z2 rest). split; [exact T1|]. split; [exact (steps_trans _ _ _ _ T2 H1')|]. split; [cbn [morez z_out]; rewrite H2, !zlen_app; lia|]. left. rewrite (step_more P) by congruence. rewrite H7. reflexivity.
    + right. split; [exact H7|]. split; [exact H8|]. exists z3, (morez zA rest), (morez y rest). split; [exact T1|]. split; [exact T2|]. split; [rewrite (step_more P) by congruence; rewrite H9; reflexivity|]. rewrite app_nil_r; cbn [morez z_out z_coder more k_code]. rewrite <- Eo. split; [pose proof (step_next_len _ _ _ I H9); lia|]. intros (_ & Q). congruence.
Qed.
(** after a call of LzmaDec_DecodeReal2 *)
Lemma after_run f p p' r o z0 z z' u v o' n st : IHf f -> d_prop p = pr -> d_needFlush p = false -> d_needInit p = false -> start r = Some z0 -> steps P z0 z -> z_out z = o ->
  (Z.to_nat (limit - d_dicPos p) < S f)%nat -> Run' limit p p' z z' u o' ->
  exists x, dic_loop f (set_temp p' []) limit v (n + zlen u) fin st = Ret x /\ RESULT pr limit fin (d_dicPos p) r (u ++ v) o n x.
Proof.
  intros IH E1 E2 E3 S1 S2 Eo Hf [[R1 R2 R3 R4] R5 R6 R7 R8 R9 R10 (w & R11) R12]. rewrite E1 in *. fold P in R5, R12.
  destruct (start_steps _ _ _ u S1 S2) as (z1 & T1 & T2).
  destruct (IH (set_temp p' []) (r ++ u) o' v (n + zlen u) st) as (x & Ex & Hx).
  - apply (I_Run _ _ _ _ z1 z'); cbn; try assumption; try congruence; [exact (steps_trans _ _ _ _ T2 R5)|apply set_temp_st, R6|]. intros _. destruct R12 as (y & Y1 & Y2). exists y. split; [exact (steps_trans _ _ _ _ T2 Y1)|exact Y2].
  - cbn. lia.
  - cbn. intros Q _. apply R10, Q.
  - cbn. lia.
  - exists x. split; [exact Ex|]. rewrite R11, Eo in *. apply (result_more _ _ _ _ _ _ _ _ u v w); [|reflexivity]. cbn [set_temp d_dicPos] in Hx. rewrite R8, zlen_app in Hx. replace (d_dicPos p + (zlen o + zlen w - zlen o)) with (d_dicPos p + zlen w) in Hx by lia. exact Hx.
Qed.
Lemma after_mark f p p' r o z0 z z' u v kn n st : d_prop p = pr -> d_needFlush p = false -> start r = Some z0 -> steps P z0 z -> z_out z = o -> Mark' limit p p' z z' u kn ->
  exists x, dic_loop f (set_temp p' []) limit v (n + zlen u) fin st = Ret x /\ RESULT pr limit fin (d_dicPos p) r (u ++ v) o n x.
Proof.
  intros E1 E2 S1 S2 Eo [[R1 R2 R3 R4] R5 R6 R7 R8 R9 R10 R11 R12 (w & R13)]. rewrite E1 in *. fold P in R5, R6.
  destruct (start_steps _ _ _ u S1 S2) as (z1 & T1 & T2). pose proof (steps_trans _ _ _ _ T2 R5) as T3.
  assert (dic_loop f (set_temp p' []) limit v (n + zlen u) fin st = if d_code p' =? 0 then Ret (set_temp p' [], n + zlen u, true, SFinishedWithMark) else Ret (set_temp p' [], n + zlen u, false, st)) as ->.
  { destruct f; cbn [dic_loop set_temp d_remain d_code]; rewrite R12; reflexivity. }
  rewrite R13, Eo in *. rewrite zlen_app in R10. destruct (Z.eqb_spec (d_code p') 0) as [Q|Q].
  - eexists; split; [reflexivity|]. cbn [RESULT]. exists u, v, w. split; [reflexivity|]. split; [reflexivity|]. split; [cbn; lia|]. split; [cbn; lia|]. split; [|split; [exact R12|exact Q]].
    apply (I_End _ _ _ _ z1 z' kn); cbn; assumption || congruence.
  - eexists; split; [reflexivity|]. cbn [RESULT]. exists u, v, w. split; [reflexivity|]. split; [reflexivity|]. split; [cbn; lia|]. split; [cbn; lia|]. destruct (start_steps _ _ _ v T1 T3) as (z3 & T4 & T5). rewrite <- app_assoc in T4. split.
    + exists [], (d_dicPos p'). rewrite app_nil_r. split; [exact R9|]. split; [change (zlen (@nil Z)) with 0; cbn; lia|]. split; [lia|]. right. exists z3, (morez z' v). split; [exact T4|]. split; [exact T5|]. cbn. rewrite R13. exists []. rewrite app_nil_r. reflexivity.
    + left. right. exists z3, (morez z' v). split; [exact T4|]. split; [exact T5|]. split; [cbn [morez z_out]; rewrite R13, zlen_app; lia|]. right. exists (more kn v). split; [rewrite (step_more P) by congruence; rewrite R6; reflexivity|]. cbn. congruence.
Qed.
Lemma after_bad p p' r o z0 z t rest n st z1 z2 pos : d_prop p = pr -> start r = Some z0 -> steps P z0 z -> zinv P z -> z_out z = o -> (d_dicPos p = limit -> fin = true /\ k_code (z_coder z) <> 0) ->
  BadR limit p p' (morez z t) z1 z2 pos -> RESULT pr limit fin (d_dicPos p) r (t ++ rest) o n (p', n, false, st).
Proof.
  intros E1 S1 S2 I Eo Hfin [B1 B2 B3 B4 B5 B6 B7 B8 B9]. rewrite E1 in *. fold P in B2, B3, B9. pose proof (morez_inv _ _ t I) as I'.
  destruct (steps_inv _ _ _ I' B2) as (I1 & (w & Ew) & _). destruct (steps_inv _ _ _ I1 B3) as (_ & (e & Ee) & _). cbn [morez z_out] in Ew, B4. rewrite Eo in *.
  apply (error_result p p' r o (t ++ rest) n st z2 t rest (morez z t)).
  - congruence.
  - apply (start_steps _ z0); assumption.
  - reflexivity.
  - exact I'.
  - exact Eo.
  - exists z2, pos, w, e. assert (z_out z2 = o ++ w ++ e) as E2 by (rewrite Ee, Ew; symmetry; apply app_assoc). split; [exact (steps_trans _ _ _ _ B2 B3)|]. split; [reflexivity|]. split; [exact E2|]. rewrite <- E2. rewrite Ee, zlen_app in B6. rewrite Ew, zlen_app in B4. split; [exact B5|]. split; [lia|]. split; [lia|]. split; [lia|].
    destruct B9 as [B9|(B9 & B10 & y & B11)]; [left; exact B9|right]. split; [exact (proj1 (Hfin B10))|]. split; [pose proof (zlen_nonneg w); lia|]. split; [|split; [exact (proj2 (Hfin B10))|exists y; exact B11]].
    rewrite B9 in E2. cbn [morez z_out] in E2. rewrite Eo in E2. destruct w as [|b w]; [reflexivity|exfalso]. apply (f_equal zlen) in E2. rewrite !zlen_app, zlen_cons in E2. pose proof (zlen_nonneg w). pose proof (zlen_nonneg e). lia.
Qed.
Lemma work_ok f p r o z0 z src n st full : IHf f -> d_prop p = pr -> d_needFlush p = false -> d_needInit p = false -> start r = Some z0 -> steps P z0 z -> ST p z o -> d_remain p = 0 ->
  k_in (z_coder z) = d_temp p -> (d_temp p <> [] -> decoded P z = None) -> d_dicPos p <= limit -> full = (limit <=? d_dicPos p) -> (full = true -> fin = true /\ d_code p <> 0) -> (Z.to_nat (limit - d_dicPos p) < S f)%nat ->
  exists x, work f p limit src n fin st full = Ret x /\ RESULT pr limit fin (d_dicPos p) r src o n x.
Proof.
  intros IH E1 E2 E3 S1 S2 HS E0 Ek Hst Hl Ef Hfin Hfuel. pose proof (st_zero _ _ _ HS E0) as Eo. pose proof (dz_inv _ _ (st_dz _ _ _ HS)) as I. rewrite E1 in I. fold P in I.
  assert (d_dicPos p = limit -> fin = true /\ k_code (z_coder z) <> 0) as Hfin' by (intros Q; rewrite <- (dz_code _ _ (st_dz _ _ _ HS)); apply Hfin; rewrite Ef; apply Z.leb_le; lia).
  assert (forall q t, (q = p \/ q = set_temp p (d_temp p ++ t)) -> DZ q z /\ DO q (z_out z) /\ d_dicPos q = d_dicPos p /\ d_prop q = pr /\ d_needFlush q = false /\ d_needInit q = false) as HQ.
  { intros q t Q. assert (ST q z o) as Sq by (destruct Q as [-> | ->]; [exact HS|apply set_temp_st, HS]). split; [exact (st_dz _ _ _ Sq)|]. split; [rewrite Eo; exact (st_do _ _ _ Sq)|]. destruct Q as [-> | ->]; cbn; auto. }
  assert (forall q t, (q = p \/ q = set_temp p (d_temp p ++ t)) -> TryDummy q (d_temp p ++ t) = Ret (match decoded P (morez z t) with Some (s, _) => kind s | None => DERROR end)) as HD.
  { intros q t Q. destruct (HQ q t Q) as (Q1 & Q2 & _ & Q3 & _). pose proof (TryDummy_ok q (morez z t) (morez_dz _ _ t Q1) Q2) as H. rewrite Q3 in H. fold P in H. rewrite <- Ek. exact H. }
  assert (k_in (z_coder z) = [] \/ decoded P z = None) as HSt by (rewrite Ek; destruct (d_temp p) as [|b l]; [left; reflexivity|right; apply Hst; discriminate]).
  assert (forall t, zlen (d_temp p ++ t) >= 20 -> decoded P (morez z t) <> None) as Hen.
  { intros t L. apply enough_input; [apply (zi_good _ _ (morez_inv _ _ t I))|apply (zi_normal _ _ (morez_inv _ _ t I))|]. cbn [morez more z_coder k_in]. rewrite Ek. lia. }
  (* more input is needed *)
  assert (forall t, decoded P (morez z t) = None -> src = t -> forall q, q = set_temp p (d_temp p ++ t) -> forall n', n' = n + zlen t -> RESULT pr limit fin (d_dicPos p) r src o n (q, n', true, SNeedsMoreInput)) as HN.
  { intros t Ed -> q -> n' ->. cbn [RESULT]. exists t, [], []. rewrite !app_nil_r. split; [reflexivity|]. split; [reflexivity|]. split; [change (zlen (@nil Z)) with 0; cbn; lia|]. split; [cbn; lia|].
    destruct (start_steps _ _ _ t S1 S2) as (z1 & T1 & T2). split.
    - apply (I_Run _ _ _ _ z1 (morez z t)); cbn; try assumption; [|rewrite Ek; reflexivity|intros _; split; assumption|intros Q; congruence]. pose proof (set_temp_st _ _ _ (d_temp p ++ t) HS) as [A1 A2 A3 A4 A5]. constructor; try assumption. apply morez_dz, A1.
    - split; [reflexivity|]. split; [|split; [exact E0|cbn; intros Q; left; rewrite (dz_code _ _ (st_dz _ _ _ HS)); apply Hfin', Q]]. right. exists z1, (morez z t). split; [exact T1|]. split; [exact T2|]. split; [fold P; rewrite step_eq, Ed; reflexivity|exact Eo]. }
  (* the wrong symbol at the end *)
  assert (forall q t rest s k, (q = p \/ q = set_temp p (d_temp p ++ t)) -> src = t ++ rest -> full = true -> decoded P (morez z t) = Some (s, k) -> kind s <> DMATCH -> RESULT pr limit fin (d_dicPos p) r src o n (q, n, false, SNotFinished)) as HW.
  { intros q t rest s k Q Es Efu Ed Hk. destruct (HQ q t Q) as (Q1 & Q2 & Q3 & Q4 & _). rewrite Ef in Efu. apply Z.leb_le in Efu.
    apply (error_result p q r o src n SNotFinished (morez z t) t rest (morez z t)); [congruence|apply (start_steps _ z0); assumption|exact Es|apply morez_inv, I|exact Eo|].
    exists (morez z t), (d_dicPos q), [], []. cbn [app]. rewrite app_nil_r. change (zlen (@nil Z)) with 0. split; [constructor|]. split; [reflexivity|]. split; [exact Eo|]. split; [pose proof (do_ring _ _ Q2) as R; rewrite Q4, Eo in R; exact R|]. split; [lia|]. split; [lia|]. split; [lia|].
    destruct (nonmatch_step _ _ _ _ Ed Hk) as [H|H]; [left; exact H|right]. split; [apply Hfin'; lia|]. split; [lia|]. split; [reflexivity|]. split; [cbn; apply Hfin'; lia|exact H]. }
  assert (forall t, full = false \/ (exists s k, decoded P (morez z t) = Some (s, k) /\ kind s = DMATCH) -> forall q, d_dicPos q = d_dicPos p -> d_prop q = pr -> d_dicPos q < limit \/ (forall s kn, decoded P (morez z t) = Some (s, kn) -> bulk s)) as HBk.
  { intros t [H|(s & k & H1 & H2)] q Q Q2.
    - left. rewrite Ef in H. apply Z.leb_gt in H. lia.
    - right. intros s' kn H. assert (s' = s) as -> by congruence. destruct s; cbn in *; try discriminate; exact Logic.I. }
  unfold work. destruct (d_temp p) as [|tb tl] eqn:Et.
  - (* nothing is kept *)
    cbn [app] in *. specialize (HD p src (or_introl eq_refl)).
    assert (exists go, (if (zlen src <? REQUIRED_INPUT_MAX) || full then
        let* dm := TryDummy p src in
        match dm with
        | DERROR => if REQUIRED_INPUT_MAX <? zlen src then UB else Ret (inr (set_temp p src, n + zlen src, true, SNeedsMoreInput))
        | _ => if full && match dm with DMATCH => false | _ => true end then Ret (inr (p, n, false, SNotFinished)) else Ret (inl 0)
        end
      else Ret (inl (zlen src - REQUIRED_INPUT_MAX))) = Ret go /\
      match go with
      | inr x => RESULT pr limit fin (d_dicPos p) r src o n x
      | inl bl => (bl <= 0 \/ bl + 20 <= zlen src) /\ decoded P (morez z src) <> None /\ (full = false \/ exists s k, decoded P (morez z src) = Some (s, k) /\ kind s = DMATCH)
      end) as (go & -> & Hgo).
    { change REQUIRED_INPUT_MAX with 20. destruct ((zlen src <? 20) || full) eqn:Ec.
      - rewrite HD. cbn [bind]. destruct (decoded P (morez z src)) as [(s, k)|] eqn:Ed.
        + assert (kind s = DMATCH \/ kind s <> DMATCH) as [Q|Q] by (destruct s; cbn; (left; congruence) || (right; congruence)).
          * rewrite Q. rewrite andb_false_r. eexists; split; [reflexivity|]. split; [left; lia|]. split; [congruence|]. right. exists s, k. split; [reflexivity|exact Q].
          * destruct full eqn:Efu.
            -- exists (inr (p, n, false, SNotFinished)). split; [destruct s; cbn in *; congruence|]. apply (HW p src [] s k); [left; reflexivity|rewrite app_nil_r; reflexivity|reflexivity|exact Ed|exact Q].
            -- exists (inl 0). split; [destruct s; cbn in *; congruence|]. split; [left; lia|]. split; [congruence|left; reflexivity].
        + destruct (Z.ltb_spec 20 (zlen src)) as [Q|Q]; [exfalso; apply (Hen src); [lia|exact Ed]|]. eexists; split; [reflexivity|]. apply (HN src); reflexivity || exact Ed.
      - apply orb_false_iff in Ec. destruct Ec as (Ec1 & Ec2). apply Z.ltb_ge in Ec1. eexists; split; [reflexivity|]. split; [right; lia|]. split; [apply Hen; lia|left; exact Ec2]. }
    cbn [bind]. destruct go as [bl|x]; [|exists x; split; [reflexivity|exact Hgo]]. destruct Hgo as (Hb & Hdec & Hkind).
    destruct (HQ p src (or_introl eq_refl)) as (Q1 & Q2 & _).
    destruct (call_ok limit bl p z src) as (p' & buf' & ok & Ec & HX); try (rewrite E1; fold P); try assumption; [rewrite Ek; exact Hb|lia|apply (HBk src Hkind p eq_refl E1)|].
    rewrite Ek in Ec, HX. cbn [app] in Ec. rewrite Ec. cbn [bind]. destruct ok; cbn [negb].
    + destruct HX as (u & v & -> & Eb & HX). change (zlen (@nil Z)) with 0 in Eb. cbn in Eb. subst buf'. rewrite advance_ok. cbn [bind].
      assert (same p p') as Sp by (destruct HX as [(z' & o' & R)|(z' & kn & M)]; [exact (rr_same _ _ _ _ _ _ _ R)|exact (mm_same _ _ _ _ _ _ _ M)]).
      rewrite <- (set_temp_nil p') by (rewrite (sm_temp _ _ Sp); exact Et).
      destruct HX as [(z' & o' & R)|(z' & kn & M)]; [exact (after_run f p p' r o z0 z z' u v o' n st IH E1 E2 E3 S1 S2 Eo Hfuel R)|exact (after_mark f p p' r o z0 z z' u v kn n st E1 E2 S1 S2 Eo M)].
    + destruct HX as (z1 & z2 & pos & B). eexists; split; [reflexivity|]. rewrite <- (app_nil_r src). exact (after_bad p p' r o z0 z src [] n st z1 z2 pos E1 S1 S2 I Eo Hfin' B).
  - (* the kept bytes *)
    set (T := tb :: tl) in *. assert (zlen T < 20) as LT.
    { destruct (Z.lt_ge_cases (zlen T) 20) as [Q|Q]; [exact Q|exfalso]. apply (Hen []); [rewrite app_nil_r; lia|]. rewrite morez_nil. apply Hst. discriminate. }
    destruct (look_ahead_ok src T 0 ltac:(lia)) as (t & rest & -> & Es & L1 & L2). rewrite Z.add_0_l.
    set (q := set_temp p (T ++ t)) in *. specialize (HD q t (or_intror eq_refl)). destruct (HQ q t (or_intror eq_refl)) as (Q1 & Q2 & Q3 & Q4 & Q5 & Q6).
    assert (exists go, (if (zlen (T ++ t) <? REQUIRED_INPUT_MAX) || full then
        let* dm := TryDummy q (T ++ t) in
        match dm with
        | DERROR => Ret (inr (q, n + zlen t, true, SNeedsMoreInput))
        | _ => if full && match dm with DMATCH => false | _ => true end then Ret (inr (q, n, false, SNotFinished)) else Ret (inl tt)
        end
      else Ret (inl tt)) = Ret go /\
      match go with
      | inr x => RESULT pr limit fin (d_dicPos p) r src o n x
      | inl _ => decoded P (morez z t) <> None /\ (full = false \/ exists s k, decoded P (morez z t) = Some (s, k) /\ kind s = DMATCH)
      end) as (go & -> & Hgo).
    { change REQUIRED_INPUT_MAX with 20. destruct ((zlen (T ++ t) <? 20) || full) eqn:Ec.
      - rewrite HD. cbn [bind]. destruct (decoded P (morez z t)) as [(s, k)|] eqn:Ed.
        + assert (kind s = DMATCH \/ kind s <> DMATCH) as [Q|Q] by (destruct s; cbn; (left; congruence) || (right; congruence)).
          * rewrite Q. rewrite andb_false_r. eexists; split; [reflexivity|]. split; [congruence|]. right. exists s, k. split; [reflexivity|exact Q].
          * destruct full eqn:Efu.
            -- exists (inr (q, n, false, SNotFinished)). split; [destruct s; cbn in *; congruence|]. apply (HW q t rest s k); [right; reflexivity|exact Es|reflexivity|exact Ed|exact Q].
            -- exists (inl tt). split; [destruct s; cbn in *; congruence|]. split; [congruence|left; reflexivity].
        + eexists; split; [reflexivity|]. destruct (Z.lt_ge_cases (zlen (T ++ t)) 20) as [Q|Q]; [|exfalso; apply (Hen t); [lia|exact Ed]]. specialize (L2 Q). subst rest. apply (HN t); [exact Ed|rewrite Es; apply app_nil_r|reflexivity|reflexivity].
      - apply orb_false_iff in Ec. destruct Ec as (Ec1 & Ec2). apply Z.ltb_ge in Ec1. eexists; split; [reflexivity|]. split; [apply Hen; lia|left; exact Ec2]. }
    cbn [bind]. destruct go as [[]|x]; [|exists x; split; [reflexivity|exact Hgo]]. destruct Hgo as (Hdec & Hkind).
    destruct (call_ok limit 0 q z t) as (p' & buf' & ok & Ec & HX); try (rewrite Q4; fold P); try assumption; [left; lia|rewrite Q3; lia|apply (HBk t Hkind q Q3 Q4)|].
    rewrite Ek in Ec, HX. rewrite Ec. cbn [bind]. destruct ok; cbn [negb].
    + destruct HX as (u & v & Eu & Eb & HX).
      assert (u32 (zlen t - u32 (zlen (T ++ t) - buf')) = zlen u) as ->.
      { rewrite Eb. pose proof (zlen_nonneg T). pose proof (zlen_nonneg u). pose proof (zlen_nonneg v). rewrite zlen_app in L1 |- *. rewrite Eu, zlen_app in *. rewrite (u32_id (zlen T + (zlen u + zlen v) - (zlen T + zlen u))) by lia. rewrite u32_id by lia. lia. }
      assert (src = u ++ (v ++ rest)) as Es2 by (rewrite Es, Eu, app_assoc; reflexivity). rewrite Es2. rewrite advance_ok. cbn [bind]. rewrite <- Q3.
      destruct HX as [(z' & o' & R)|(z' & kn & M)]; [apply (after_run f q p' r o z0 z z' u _ o' n st IH Q4 Q5 Q6 S1 S2 Eo); [rewrite Q3; exact Hfuel|exact R]|exact (after_mark f q p' r o z0 z z' u _ kn n st Q4 Q5 S1 S2 Eo M)].
    + destruct HX as (z1 & z2 & pos & B). eexists; split; [reflexivity|]. rewrite Es, <- Q3. apply (after_bad q p' r o z0 z t rest n st z1 z2 pos Q4 S1 S2 I Eo); [rewrite Q3; exact Hfin'|exact B].
Qed.
End Loop.
