(** Proofs for C56 *)
From Verif Require Import Base StreamSpec SizeSpec P_Stream M_StringStream P_StringStream M_Buffered BufferedSpec P_Buffered P_Buffered2
  M_Sub P_Sub P_Sub2 M_File P_File M_DataEvent DataEventSpec P_DataEvent T_DataEvent M_Lzma.

(** by a simulation whose related states know the size at the end *)
Lemma known_sim {St A} (o : ops St A) content fails lim (R : St -> view -> Prop) s v :
  sim o content fails lim R -> (forall t w, R t w -> o_status o t = Eof -> o_size o t = zlen content) -> R s v ->
  size_known o content lim s.
Proof.
  intros HS HK HR l s' obs Hl E He. destruct (sim_run _ _ _ _ _ _ _ _ _ _ HS HR Hl E) as (w & Hw); [congruence|]. exact (HK _ _ Hw He).
Qed.

(** by an invariant of single calls *)
Lemma known_inv {St A} (o : ops St A) content (fails : Prop) lim (K : St -> Prop) s v :
  Conforms o content fails lim s v -> ~ fails -> K s ->
  (forall t c t' ob, K t -> call_ok content lim c -> exec o t c = Ret (t', ob) -> 0 <= o_pos o t' -> ob_st ob <> Error -> K t') ->
  (forall t, K t -> 0 <= o_pos o t -> o_status o t = Eof -> o_size o t <> -1) ->
  (o_size o s = -1 \/ o_size o s = zlen content) ->
  size_known o content lim s.
Proof.
  intros HC Hf HK Hstep Hend Hs0.
  set (R := fun t w => Conforms o content fails lim t w /\ K t /\ (o_size o t = -1 \/ o_size o t = zlen content)).
  apply known_sim with (fails := fails) (R := R) (v := v); [|intros t w ((Hw & Hp & _) & Hk & Hz) He; unfold view_ok in Hw; specialize (Hend _ Hk ltac:(lia) He); tauto|repeat (split; [assumption|]); assumption].
  pose proof (conforms_sim o content fails lim) as HS. split.
  - intros t w (H & _). eapply sim_view; eassumption.
  - intros t w (H & _). eapply sim_pos; eassumption.
  - intros t w c (H & Hk & Hz) Hc. destruct (sim_step _ _ _ _ _ HS t w c H Hc) as (t' & ob & E & [[G HR]|B]); exists t', ob; (split; [exact E|]); [left|right; exact B].
    split; [exact G|]. split; [exact HR|]. destruct (exec_status _ _ _ _ _ E) as (E1 & E2 & E3).
    assert (HV := sim_view _ _ _ _ _ HS _ _ HR). assert (HP := sim_pos _ _ _ _ _ HS _ _ HR). unfold view_ok in HV.
    split; [|destruct G as (_ & _ & _ & [G|G] & _); [tauto|rewrite <- E3; exact G]].
    apply (Hstep t c t' ob Hk Hc E); [lia|apply G].
Qed.
(** and it stays known *)
Lemma known_step {St A} (o : ops St A) content lim s c s' ob : size_known o content lim s -> call_ok content lim c ->
  exec o s c = Ret (s', ob) -> ob_st ob <> Error -> size_known o content lim s'.
Proof.
  intros H Hc E Hne l t obs Hl Er He. apply (H (c :: l) t (ob :: obs)); [constructor; assumption| |exact He].
  cbn [run]. rewrite E; cbn [bind]. rewrite (is_error_false _ Hne), Er. reflexivity.
Qed.
Lemma known_now {St A} (o : ops St A) content lim s : size_known o content lim s -> o_status o s = Eof -> o_size o s = zlen content.
Proof. intros H. exact (H [] s [] (Forall_nil _) eq_refl). Qed.
(** streams whose size() never changes *)
Lemma known_const {St A} (o : ops St A) content lim s :
  (forall t c t' ob, exec o t c = Ret (t', ob) -> o_size o t' = o_size o t) -> o_size o s = zlen content -> size_known o content lim s.
Proof.
  intros H Hs l. revert s Hs. induction l as [|c l IH]; intros s Hs s' obs Hl E He.
  - cbn in E. injection E as <- <-. exact Hs.
  - cbn [run] in E. destruct (exec o s c) as [[s1 ob]| | |] eqn:Ex; cbn [bind] in E; try discriminate.
    assert (o_size o s1 = zlen content) as H1 by (rewrite (H _ _ _ _ Ex); exact Hs). inversion Hl; subst.
    destruct (is_error (ob_st ob)); [injection E as <- <-; exact H1|].
    destruct (run o s1 l) as [[s2 obs2]| | |] eqn:E2; cbn [bind] in E; try discriminate. injection E as <- <-.
    exact (IH s1 H1 _ _ ltac:(assumption) E2 He).
Qed.

(** data event streams *)
Section DE.
Context {P A : Type}.
Variables (par : ops P A) (want : list (list A) -> bool) (content : list A) (fails : Prop) (lim : Z).
Definition dk_R (p : P) (v : view) : Prop := hon_R par content fails lim p v /\ size_known par content lim p.
Lemma dk_sim : sim par content fails lim dk_R.
Proof.
  pose proof (hon_sim par content fails lim) as HS. split.
  - intros p v (H & _). eapply sim_view; eassumption.
  - intros p v (H & _). eapply sim_pos; eassumption.
  - intros p v c (H & Hh) Hc. destruct (sim_step _ _ _ _ _ HS p v c H Hc) as (p' & ob & E & [[G HR]|B]); exists p', ob; (split; [exact E|]); [left|right; exact B].
    split; [exact G|]. split; [exact HR|]. eapply known_step; [exact Hh|exact Hc|exact E|apply G].
Qed.
Definition dk (s : des P A) : Prop := de_st s = Eof -> de_size s <> -1.
Lemma de_read_dk s mn mx s' n d : dk s -> de_read par want s mn mx = Ret (s', n, d) -> 0 <= de_pos s' -> dk s'.
Proof.
  unfold dk, de_read. intros HK E Hp. destruct (o_read par (de_in s) mn mx) as [[[p m] b]| | |]; cbn [bind] in E; try discriminate.
  destruct (m <? -1); [injection E as <- <- <-; cbn; congruence|].
  assert (forall t m1 d1, dk t -> de_size t = de_size s -> de_st t = de_st s ->
     (if m1 <? mn then
      let size := if de_size t =? -1 then de_pos t else de_size t in
      if negb (size =? de_pos t) then Abort
      else if negb ((de_total t =? -1) || (de_total t =? size)) then Abort
      else Ret (mkDe (de_in t) (de_total t) true (de_pos t) size Eof (if de_fin t then de_log t else de_log t ++ [End]), m1, d1)
    else Ret (t, m1, d1)) = Ret (s', n, d) -> dk s') as Fin.
  { intros t m1 d1 HK1 Hz Hst Eq. cbv zeta in Eq. destruct (m1 <? mn).
    - destruct (negb ((if de_size t =? -1 then de_pos t else de_size t) =? de_pos t)); [discriminate|].
      destruct (negb ((de_total t =? -1) || (de_total t =? (if de_size t =? -1 then de_pos t else de_size t)))); [discriminate|].
      apply (f_equal (fun r => match r with Ret (q, _, _) => q | _ => s' end)) in Eq. cbv beta iota in Eq. subst s'.
      unfold dk. cbn [de_st de_size de_pos] in *. intros _. destruct (Z.eqb_spec (de_size t) (-1)); lia.
    - injection Eq as <- _ _. exact HK1. }
  set (t0 := if 0 <? m then _ else _) in E.
  destruct t0 as [[[t m1] d1]| | |] eqn:Et; cbn [bind] in E; try discriminate. cbv zeta in E.
  assert (dk t /\ de_size t = de_size s /\ de_st t = de_st s) as (H1 & H2 & H3).
  { unfold t0 in Et. destruct (0 <? m); [|injection Et as <- _ _; cbn; auto].
    cbv zeta in Et. destruct (negb (de_total s =? -1) && _) in Et.
    - match type of Et with (if ?c then _ else _) = _ => destruct c end; [discriminate|]. injection Et as <- _ _. unfold dk; cbn; auto.
    - injection Et as <- _ _. unfold dk; cbn; auto. }
  exact (Fin t m1 d1 H1 H2 H3 E).
Qed.

Hypothesis Hlim : 1 <= lim.
Hypothesis Hlen : zlen content <= INT32_MAX.
Let R := shr content dk_R.
Let HS : sim par content fails lim R := sim_shr _ _ _ _ _ dk_sim.
Lemma dk_pt p v : R p v -> R p (mkView (v_pos v) (v_pos v) (v_pos v)).
Proof. intros; apply shr_point; assumption. Qed.
Lemma dk_sz p v : R p v -> o_size par p = -1 \/ o_size par p = zlen content.
Proof. intros (_ & v0 & ((_ & Hq) & _) & _). exact (proj1 (Hq [] p [] (Forall_nil _) eq_refl (Forall_nil _))). Qed.
Lemma dk_rs p v q p' r : R p v -> 0 <= q <= v_pos v -> o_reset par p q = Ret (p', r) -> o_status par p' <> Error.
Proof.
  intros (_ & v0 & ((Hq0 & Hq) & _) & Ev & _) Hz E. apply (proj2 (Hq [] p [] (Forall_nil _) eq_refl (Forall_nil _)) q p' r); [|exact E].
  destruct Hq0 as (_ & -> & _). lia.
Qed.
Lemma dk_known p v : R p v -> o_status par p = Eof -> o_size par p = zlen content.
Proof. intros (_ & v0 & (_ & Hk) & _). apply known_now with (lim := lim). exact Hk. Qed.
Let ino := inv want content R.
Lemma ino_pos s v far : ino s v far -> 0 <= de_pos s.
Proof. intros (Hv & _ & Hp & _). unfold view_ok in Hv. lia. Qed.

Lemma loop_dk fuel : forall s v far n sk s' k, ino s v far -> dk s -> 0 <= n -> (Z.to_nat n <= fuel)%nat ->
  default_skip_loop (de_read par want) fuel s n sk = Ret (s', k) -> de_st s' <> Error -> dk s'.
Proof.
  induction fuel as [|f IH]; intros s v far n sk s' k HI HK Hn Hf E Hne; cbn [default_skip_loop] in E.
  - destruct (Z.leb_spec n 0); [injection E as <- _; exact HK|discriminate].
  - destruct (Z.leb_spec n 0); [injection E as <- _; exact HK|].
    set (step := if 10000000 <? n then 10000000 else n) in E.
    assert (1 <= step <= n /\ step <= 10000000) as Hst by (unfold step; destruct (Z.ltb_spec 10000000 n); lia).
    clearbody step.
    destruct (de_read_ok par want content fails lim R HS s v far 1 step HI) as (s1 & m & d & E1 & Hres).
    { cbn [call_ok]. unfold INT32_MAX. lia. }
    rewrite E1 in E; cbn [bind] in E.
    destruct Hres as [(G & HI' & _)|(Q1 & Q2 & -> & Q4)].
    2:{ cbn in E. injection E as <- _. congruence. }
    assert (dk s1) as HK1 by (eapply de_read_dk; [exact HK|exact E1|eapply ino_pos; exact HI']).
    destruct (m <? -1); [injection E as <- _; exact HK1|]. destruct (Z.ltb_spec m 1); [injection E as <- _; exact HK1|].
    eapply (IH s1); [exact HI'|exact HK1| | |exact E|exact Hne]; [|lia].
    destruct G as (_ & _ & _ & _ & [(R1 & R2 & R3 & R4 & R5)|(R1 & _)]); cbn [observe ob_ret] in *; [|lia]. specialize (R4 ltac:(lia)). lia.
Qed.
Lemma skip_dk s v far n s' k : ino s v far -> dk s -> 0 <= n <= INT32_MAX -> de_skip par want s n = Ret (s', k) -> de_st s' <> Error -> dk s'.
Proof.
  intros HI HK Hn E Hne. unfold de_skip in E. destruct (de_total s =? -1).
  - assert (HI' := HI). destruct HI' as (Hv & HR & _).
    destruct (sim_skip _ _ _ _ _ (de_in s) v n HS HR Hn) as (p & m & E1 & Hres). rewrite E1 in E; cbn [bind] in E. injection E as <- _.
    unfold dk; cbn [de_st de_size] in *. intros He. destruct Hres as [[G HR']|(Q & _)]; [|congruence].
    rewrite (dk_known _ _ HR' He). pose proof (zlen_nonneg content). lia.
  - unfold default_skip in E. eapply loop_dk; [exact HI|exact HK| | |exact E|exact Hne]; lia.
Qed.
Lemma exec_dk s v far c s' ob : ino s v far -> dk s -> call_ok content lim c -> exec (de_ops par want) s c = Ret (s', ob) -> ob_st ob <> Error ->
  dk s' /\ exists v' far', ino s' v' far'.
Proof.
  intros HI HK Hc E Hne. assert (exists v' far', ino s' v' far') as Hi.
  { destruct (de_exec_ok par want content fails lim R HS dk_pt dk_sz dk_rs Hlim Hlen s v far c HI Hc) as (t & o & E1 & Hres). rewrite E in E1. injection E1 as <- <-.
    destruct Hres as [(_ & Hi & _)|(B & _)]; [do 2 eexists; exact Hi|destruct B; congruence]. }
  split; [|exact Hi]. destruct (exec_status _ _ _ _ _ E) as (Es & _). cbn [o_status de_ops] in Es. rewrite Es in Hne.
  destruct Hi as (v' & far' & Hi). destruct c as [mn mx|n|q]; cbn [exec de_ops o_read o_skip o_reset call_ok] in *.
  - destruct (de_read par want s mn mx) as [[[t m] d]| | |] eqn:Er; cbn [bind] in E; try discriminate. injection E as <- _.
    eapply de_read_dk; [exact HK|exact Er|eapply ino_pos; exact Hi].
  - destruct (de_skip par want s n) as [[t m]| | |] eqn:Er; cbn [bind] in E; try discriminate. injection E as <- _.
    exact (skip_dk s v far n t m HI HK Hc Er Hne).
  - destruct (de_reset par want s q) as [[t m]| | |] eqn:Er; cbn [bind] in E; try discriminate. injection E as <- _.
    assert (Hp : de_pos s = v_pos v) by apply HI. assert (HV : view_ok content v) by apply HI. unfold view_ok in HV.
    unfold de_reset in Er. destruct (Z.ltb_spec (de_pos s) q).
    + destruct (de_skip par want s (q - de_pos s)) as [[t1 m1]| | |] eqn:E2; cbn [bind] in Er; try discriminate. injection Er as <- _.
      eapply skip_dk; [exact HI|exact HK| |exact E2|exact Hne]. lia.
    + destruct (o_reset par (de_in s) q) as [[p r]| | |]; cbn [bind] in Er; try discriminate. injection Er as <- _.
      unfold dk; cbn [de_st de_size]. destruct (Z.ltb_spec r 0); [discriminate|]. destruct (Z.eqb_spec r (de_size s)); [lia|discriminate].
Qed.
Lemma de_known_run l : forall s v far s' obs, ino s v far -> dk s -> Forall (call_ok content lim) l -> run (de_ops par want) s l = Ret (s', obs) ->
  de_st s' = Eof -> de_size s' = zlen content.
Proof.
  induction l as [|c l IH]; intros s v far s' obs HI HK Hl E He.
  - cbn in E. injection E as <- _. specialize (HK He). destruct HI as (_ & _ & _ & _ & _ & [Hz|Hz] & _); [congruence|exact Hz].
  - inversion Hl as [|? ? Hc Hl']; subst. cbn [run] in E.
    destruct (exec (de_ops par want) s c) as [[s1 ob]| | |] eqn:Ex; cbn [bind] in E; try discriminate.
    destruct (exec_status _ _ _ _ _ Ex) as (Es & _). cbn [o_status de_ops] in Es.
    destruct (is_error (ob_st ob)) eqn:Er.
    + apply is_error_true in Er. injection E as <- _. congruence.
    + assert (ob_st ob <> Error) as Hne by (intros Q; rewrite Q in Er; discriminate).
      destruct (exec_dk s v far c s1 ob HI HK Hc Ex Hne) as (HK1 & v1 & far1 & HI1).
      destruct (run (de_ops par want) s1 l) as [[s2 obs2]| | |] eqn:E2; cbn [bind] in E; try discriminate. injection E as <- _.
      exact (IH s1 v1 far1 s2 obs2 HI1 HK1 Hl' E2 He).
Qed.
Lemma de_known p : Conforms par content fails lim p view0 -> honest par content lim p -> size_known par content lim p ->
  exists s, de_new par p = Ret s /\ size_known (de_ops par want) content lim s.
Proof.
  intros HC Hh Hk. assert (dk_R p view0) as H0 by (split; [split|]; assumption).
  assert (R p view0) as HR by (apply shr_intro with (o := par) (fails := fails) (lim := lim); [exact dk_sim|exact H0]).
  unfold de_new. assert (o_pos par p = 0) as -> by (destruct HC as (_ & -> & _); reflexivity). cbn [Z.eqb]. eexists; split; [reflexivity|].
  intros l s' obs Hl E He. refine (de_known_run l _ view0 0 s' obs _ _ Hl E He); [|unfold dk; cbn; discriminate].
  pose proof (zlen_nonneg content). unfold ino, inv. cbn [de_in de_pos de_st de_size view0 v_pos v_lo v_hi]. split; [unfold view_ok; cbn; lia|].
  split; [exact HR|]. split; [reflexivity|]. split; [discriminate|]. split; [discriminate|]. split; [exact (dk_sz _ _ HR)|]. split; [lia|].
  exists []. cbn [de_log de_fin de_total]. split; [reflexivity|]. split; [constructor|]. split; [cbn; lia|]. split; [discriminate|].
  left. split; [reflexivity|]. split; [reflexivity|congruence].
Qed.
End DE.

(** signature streams *)
Lemma sig_known {P A} (par : ops P A) content lim p : size_known par content lim p -> size_known (sig_ops par) content lim (sig_new par p).
Proof.
  intros H l s' obs Hl E He. rewrite sig_run in E. cbn [sig_new sg_in] in E.
  destruct (run par p l) as [[q obs2]| | |] eqn:Er; try discriminate. injection E as <- _.
  destruct l; [cbn in He; discriminate|]. cbn [o_status o_size sig_ops sg_st sg_size] in *. eapply H; eassumption.
Qed.

(** buffered streams *)
Lemma bs_known {S A} (src : source S A) content (fails : Prop) SR SE x : SrcOK src content fails SR SE -> bs_init_ok content fails SR x ->
  bs_size x = -1 \/ bs_size x = zlen content -> size_known (bs_ops src) content BUF_LIM x.
Proof.
  intros HS HI Hz. apply known_sim with (fails := fails) (R := bs_R4 content fails SR SE) (v := view0).
  - apply bs_sim4. exact HS.
  - intros t w (_ & _ & Hk) He. exact (Hk He).
  - split; [apply bs_init_R; exact HI|]. split; [exact Hz|]. destruct HI as (_ & _ & _ & _ & _ & _ & -> & _). discriminate.
Qed.

(** every stream with the read/skip/reset of BufferedStream *)
Section AnyBuffered.
Context {S A : Type}.
Variable src : source S A.
Definition bk (x : bstream S A) : Prop := bs_st x = Eof -> bs_size x <> -1.
Lemma wtb_status fuel : forall b s st ntoread maxread missing nw b' s' st' nw', st <> Eof ->
  wtb_loop src fuel b s st ntoread maxread missing nw = Ret (b', s', st', nw') -> st' <> Eof.
Proof.
  induction fuel as [|f IH]; intros b s st ntoread maxread missing nw b' s' st' nw' Hst E; cbn [wtb_loop] in E.
  - destruct (_ && _); [discriminate|]. injection E as _ _ <- _. exact Hst.
  - destruct (_ && _); [|injection E as _ _ <- _; exact Hst].
    destruct (makeSpace b missing) as [[b1 sp]| | |]; cbn [bind] in E; try discriminate.
    destruct (fill src s _) as [[[[s1 n] d] err]| | |]; cbn [bind] in E; try discriminate.
    destruct (buf_write b1 d) as [b2| | |]; cbn [bind] in E; try discriminate. cbv zeta in E.
    eapply IH; [|exact E]. destruct err; [discriminate|exact Hst].
Qed.
Lemma bs_read_bk x mn mx x' n d : bk x -> bs_read src x mn mx = Ret (x', n, d) -> 0 <= bs_pos x' -> bk x'.
Proof.
  unfold bk, bs_read. intros H E Hp. destruct (bs_st x) eqn:Est.
  2,3: injection E as <- <- <-; rewrite Est; exact H.
  match type of E with context [if ?c then writeToBuffer src x mn ?m else Ret x] =>
    set (e := if c then writeToBuffer src x mn m else Ret x) in E end.
  assert (forall x1, e = Ret x1 -> bs_st x1 <> Eof) as He.
  { intros x1. unfold e. destruct (_ && _); [|intros Q; injection Q as <-; congruence].
    unfold writeToBuffer. destruct (wtb_loop _ _ _ _ _ _ _ _ _) as [[[[? ?] ?] ?]| | |] eqn:Ew; cbn [bind]; try discriminate.
    intros Q; injection Q as <-. cbn [bs_st]. eapply wtb_status; [|exact Ew]. congruence. }
  destruct e as [x1| | |]; cbn [bind] in E; try discriminate. specialize (He x1 eq_refl).
  destruct (is_error (bs_st x1)); [injection E as <- <- <-; congruence|].
  destruct (buf_read _ _) as [[[b k] dd]| | |]; cbn [bind] in E; try discriminate.
  destruct (_ && _) in E; [injection E as <- <- <-; cbn; congruence|].
  destruct (_ && _ && _) in E; injection E as <- <- <-; cbn [bs_st bs_size bs_pos] in *; [|congruence].
  intros _. destruct (Z.eqb_spec (bs_size x1) (-1)); lia.
Qed.
Lemma bs_skip_bk content fails : forall fuel x v n sk x' k, Conforms (bs_ops src) content fails BUF_LIM x v -> bk x ->
  bs_skip_loop src fuel x n sk = Ret (x', k) -> bk x'.
Proof.
  induction fuel as [|f IH]; intros x v n sk x' k HC H E; cbn [bs_skip_loop] in E.
  - destruct (n =? 0); [injection E as <- <-; exact H|discriminate].
  - destruct (n =? 0); [injection E as <- <-; exact H|].
    match type of E with context [bs_read src x 1 ?st] => set (stp := st) in E end.
    assert (INT32_MIN <= stp <= INT32_MAX) as Hs by (apply wrap32_range').
    destruct (sim_read _ _ _ _ _ x v 1 stp (conforms_sim _ _ _ _) HC) as (x1 & m & d & Er & Hres); [cbn; unfold BUF_LIM, INT32_MAX, INT32_MIN in *; lia|].
    cbn [o_read bs_ops] in Er. rewrite Er in E; cbn [bind] in E.
    destruct Hres as [[G HR]|(Q & _ & ->)].
    + assert (bk x1) as H1. { eapply bs_read_bk; [exact H|exact Er|]. destruct HR as (Hv & Hp & _). unfold view_ok in Hv. cbn [o_pos bs_ops] in Hp. lia. }
      destruct (m <=? 0); [injection E as <- <-; exact H1|]. eapply IH; [exact HR|exact H1|exact E].
    + cbn in E. injection E as <- <-. cbn in Q. unfold bk; congruence.
Qed.
Definition bkR content fails x v := Conforms (bs_ops src) content fails BUF_LIM x v /\ bk x.
Lemma bk_sim content fails : sim (bs_ops src) content fails BUF_LIM (bkR content fails).
Proof.
  pose proof (conforms_sim (bs_ops src) content fails BUF_LIM) as HS. split.
  - intros x v [H _]; eapply sim_view; eassumption.
  - intros x v [H _]; eapply sim_pos; eassumption.
  - intros x v c [H J] Hc. destruct (sim_step _ _ _ _ _ HS x v c H Hc) as (x' & ob & E & [[G HR]|B]); exists x', ob; (split; [exact E|]); [left|right; exact B].
    split; [exact G|]. split; [exact HR|]. assert (HV := sim_view _ _ _ _ _ HS _ _ HR). assert (HP := sim_pos _ _ _ _ _ HS _ _ HR). unfold view_ok in HV. cbn [o_pos bs_ops] in HP.
    destruct c as [mn mx|n|p]; cbn [exec bs_ops o_read o_skip o_reset call_ok] in *.
    + destruct (bs_read src x mn mx) as [[[x1 m] d]| | |] eqn:Er; cbn [bind] in E; try discriminate.
      injection E as <- _. eapply bs_read_bk; [exact J|exact Er|lia].
    + destruct (bs_skip src x n) as [[x1 m]| | |] eqn:Er; cbn [bind] in E; try discriminate.
      injection E as <- _. unfold bs_skip in Er. eapply bs_skip_bk; [exact H|exact J|exact Er].
    + destruct (bs_reset x p) as [[x1 m]| | |] eqn:Er; cbn [bind] in E; try discriminate.
      injection E as <- _. unfold bs_reset in Er. destruct (p <? 0); [discriminate|]. unfold bk in *.
      destruct (bs_st x) eqn:Est; try destruct (_ && _); injection Er as <- _; cbn; rewrite ?Est; auto; congruence.
Qed.
Lemma bs_known_any content (fails : Prop) x v l x' obs : Conforms (bs_ops src) content fails BUF_LIM x v -> bs_st x <> Eof ->
  Forall (call_ok content BUF_LIM) l -> run (bs_ops src) x l = Ret (x', obs) -> bs_st x' = Eof ->
  bs_size x' <> -1 /\ (fails \/ bs_size x' = zlen content).
Proof.
  intros HC Hst Hl E He. assert (bkR content fails x v) as H0 by (split; [exact HC|intros Q; congruence]).
  destruct (sim_run _ _ _ _ _ _ _ _ _ _ (bk_sim content fails) H0 Hl E) as (w & Hw & Hk); [cbn; congruence|].
  specialize (Hk He). split; [exact Hk|].
  destruct (sim_step _ _ _ _ _ (conforms_sim (bs_ops src) content fails BUF_LIM) x' w (Read 1 1) Hw) as (t & ob & Ex & Hres); [cbn; unfold BUF_LIM, INT32_MAX; lia|].
  cbn [exec bs_ops o_read] in Ex. unfold bs_read in Ex. rewrite He in Ex. cbn [bind] in Ex. injection Ex as <- <-.
  destruct Hres as [[(_ & _ & _ & [G|[G|G]] & _) _]|(Q & _)]; [left; exact G|cbn in G; congruence|right; exact G|cbn in Q; congruence].
Qed.
End AnyBuffered.

(** LZMAInputStream, whose fillBuffer may change m_size *)
Section Lz.
Context {D P : Type}.
Variables (cd : lzcodec D) (par : ops P Z).
Lemma l_read_bk x mn mx x' n d : bk x -> l_read cd par x mn mx = Ret (x', n, d) -> 0 <= bs_pos x' -> bk x'.
Proof.
  unfold bk, l_read. intros H E Hp. destruct (bs_st x) eqn:Est.
  2,3: injection E as <- <- <-; rewrite Est; exact H.
  cbv zeta in E. destruct (if negb (bs_fin x) && (b_avail (bs_buf x) <? mn) then _ else Ret x) as [x1| | |] eqn:Ee in E; cbn [bind] in E; try discriminate.
  assert (bs_st x1 <> Eof) as He.
  { destruct (_ && _) in Ee; [|injection Ee as <-; congruence].
    unfold writeToBuffer in Ee. destruct (wtb_loop _ _ _ _ _ _ _ _ _) as [[[[? ?] ?] ?]| | |] eqn:Ew in Ee; cbn [bind] in Ee; try discriminate.
    injection Ee as <-. cbn [bs_st]. eapply wtb_status; [|exact Ew]. congruence. }
  destruct (is_error (bs_st x1)); [injection E as <- <- <-; congruence|].
  destruct (buf_read _ _) as [[[b k] dd]| | |]; cbn [bind] in E; try discriminate.
  destruct (_ && _) in E; [injection E as <- <- <-; cbn; congruence|].
  destruct (_ && _ && _) in E; injection E as <- <- <-; cbn [bs_st bs_size bs_pos] in *; [|congruence].
  intros _. destruct (Z.eqb_spec (bs_size x1) (-1)); lia.
Qed.
Lemma l_skip_bk content fails : forall fuel x v n sk x' k, Conforms (l_ops cd par) content fails BUF_LIM x v -> bk x ->
  l_skip_loop cd par fuel x n sk = Ret (x', k) -> bk x'.
Proof.
  induction fuel as [|f IH]; intros x v n sk x' k HC H E; cbn [l_skip_loop] in E.
  - destruct (n =? 0); [injection E as <- <-; exact H|discriminate].
  - destruct (n =? 0); [injection E as <- <-; exact H|].
    match type of E with context [l_read cd par x 1 ?st] => set (stp := st) in E end.
    assert (INT32_MIN <= stp <= INT32_MAX) as Hs by (apply wrap32_range').
    destruct (sim_read _ _ _ _ _ x v 1 stp (conforms_sim _ _ _ _) HC) as (x1 & m & d & Er & Hres); [cbn; unfold BUF_LIM, INT32_MAX, INT32_MIN in *; lia|].
    cbn [o_read l_ops] in Er. rewrite Er in E; cbn [bind] in E.
    destruct Hres as [[G HR]|(Q & _ & ->)].
    + assert (bk x1) as H1. { eapply l_read_bk; [exact H|exact Er|]. destruct HR as (Hv & Hp & _). unfold view_ok in Hv. cbn [o_pos l_ops] in Hp. lia. }
      destruct (m <=? 0); [injection E as <- <-; exact H1|]. eapply IH; [exact HR|exact H1|exact E].
    + cbn in E. injection E as <- <-. cbn in Q. unfold bk; congruence.
Qed.
Definition lkR content fails (x : bstream (lstate D P) Z) v := Conforms (l_ops cd par) content fails BUF_LIM x v /\ bk x.
Lemma lk_sim content fails : sim (l_ops cd par) content fails BUF_LIM (lkR content fails).
Proof.
  pose proof (conforms_sim (l_ops cd par) content fails BUF_LIM) as HS. split.
  - intros x v [H _]; eapply sim_view; eassumption.
  - intros x v [H _]; eapply sim_pos; eassumption.
  - intros x v c [H J] Hc. destruct (sim_step _ _ _ _ _ HS x v c H Hc) as (x' & ob & E & [[G HR]|B]); exists x', ob; (split; [exact E|]); [left|right; exact B].
    split; [exact G|]. split; [exact HR|]. assert (HV := sim_view _ _ _ _ _ HS _ _ HR). assert (HP := sim_pos _ _ _ _ _ HS _ _ HR). unfold view_ok in HV. cbn [o_pos l_ops] in HP.
    destruct c as [mn mx|n|p]; cbn [exec l_ops o_read o_skip o_reset call_ok] in *.
    + destruct (l_read cd par x mn mx) as [[[x1 m] d]| | |] eqn:Er; cbn [bind] in E; try discriminate.
      injection E as <- _. eapply l_read_bk; [exact J|exact Er|lia].
    + destruct (l_skip cd par x n) as [[x1 m]| | |] eqn:Er; cbn [bind] in E; try discriminate.
      injection E as <- _. unfold l_skip in Er. eapply l_skip_bk; [exact H|exact J|exact Er].
    + destruct (bs_reset x p) as [[x1 m]| | |] eqn:Er; cbn [bind] in E; try discriminate.
      injection E as <- _. unfold bs_reset in Er. destruct (p <? 0); [discriminate|]. unfold bk in *.
      destruct (bs_st x) eqn:Est; try destruct (_ && _); injection Er as <- _; cbn; rewrite ?Est; auto; congruence.
Qed.
Lemma l_known_any content (fails : Prop) x v l x' obs : Conforms (l_ops cd par) content fails BUF_LIM x v -> bs_st x <> Eof ->
  Forall (call_ok content BUF_LIM) l -> run (l_ops cd par) x l = Ret (x', obs) -> bs_st x' = Eof ->
  bs_size x' <> -1 /\ (fails \/ bs_size x' = zlen content).
Proof.
  intros HC Hst Hl E He. assert (lkR content fails x v) as H0 by (split; [exact HC|intros Q; congruence]).
  destruct (sim_run _ _ _ _ _ _ _ _ _ _ (lk_sim content fails) H0 Hl E) as (w & Hw & Hk); [cbn; congruence|].
  specialize (Hk He). split; [exact Hk|].
  destruct (sim_step _ _ _ _ _ (conforms_sim (l_ops cd par) content fails BUF_LIM) x' w (Read 1 1) Hw) as (t & ob & Ex & Hres); [cbn; unfold BUF_LIM, INT32_MAX; lia|].
  cbn [exec l_ops o_read] in Ex. unfold l_read in Ex. rewrite He in Ex. cbn [bind] in Ex. injection Ex as <- <-.
  destruct Hres as [[(_ & _ & _ & [G|[G|G]] & _) _]|(Q & _)]; [left; exact G|cbn in G; congruence|right; exact G|cbn in Q; congruence].
Qed.
End Lz.

(** a substream of given size *)
Lemma sub_size_const {P A} (par : ops P A) t c t' ob : exec (sub_ops par) t c = Ret (t', ob) -> su_size t <> -1 -> su_size t' = su_size t.
Proof.
  destruct c as [mn mx|n|p]; cbn [exec sub_ops o_read o_skip o_reset]; intros E Hn.
  - destruct (sub_read par t mn mx) as [[[x m] d]| | |] eqn:Er; cbn [bind] in E; try discriminate. injection E as <- _.
    unfold sub_read in Er. destruct (Z.eqb_spec (su_size t) (-1)); [lia|]. cbv zeta in Er. destruct (_ =? 0) in Er; [injection Er as <- _ _; reflexivity|].
    unfold sub_read_body in Er. destruct (o_read par _ _ _) as [[[q k] b]| | |]; cbn [bind] in Er; try discriminate.
    destruct (negb _); [discriminate|]. destruct (k <? -1); [injection Er as <- _ _; reflexivity|].
    destruct (k <? _); [|injection Er as <- _ _; reflexivity].
    destruct (Z.eqb_spec (su_size t) (-1)); [lia|]. injection Er as <- _ _; reflexivity.
  - destruct (sub_skip par t n) as [[x m]| | |] eqn:Er; cbn [bind] in E; try discriminate. injection E as <- _.
    unfold sub_skip in Er. destruct (_ =? _) in Er; [injection Er as <- _; reflexivity|]. destruct (n =? 0); [injection Er as <- _; reflexivity|]. cbv zeta in Er.
    destruct (o_skip par _ _) as [[q k]| | |]; cbn [bind] in Er; try discriminate.
    destruct (is_error _); [injection Er as <- _; reflexivity|]. destruct (_ =? su_size t); [injection Er as <- _; reflexivity|]. destruct (_ <=? 0); injection Er as <- _; reflexivity.
  - destruct (sub_reset par t p) as [[x m]| | |] eqn:Er; cbn [bind] in E; try discriminate. injection E as <- _.
    unfold sub_reset in Er. destruct (p <? 0); [discriminate|]. destruct (o_reset par _ _) as [[q k]| | |]; cbn [bind] in Er; try discriminate.
    destruct (k <? _); injection Er as <- _; reflexivity.
Qed.
Lemma run_size {St A} (o : ops St A) z : (forall t c t' ob, exec o t c = Ret (t', ob) -> o_size o t = z -> o_size o t' = z) ->
  forall l s s' obs, o_size o s = z -> run o s l = Ret (s', obs) -> o_size o s' = z.
Proof.
  intros H. induction l as [|c l IH]; intros s s' obs Hs E.
  - cbn in E. injection E as <- _. exact Hs.
  - cbn [run] in E. destruct (exec o s c) as [[s1 ob]| | |] eqn:Ex; cbn [bind] in E; try discriminate.
    assert (o_size o s1 = z) as H1 by (exact (H _ _ _ _ Ex Hs)).
    destruct (is_error (ob_st ob)); [injection E as <- _; exact H1|].
    destruct (run o s1 l) as [[s2 obs2]| | |] eqn:E2; cbn [bind] in E; try discriminate. injection E as <- _.
    exact (IH s1 _ _ H1 E2).
Qed.
