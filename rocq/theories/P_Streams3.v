(** Supplements to the stream proofs used by T_Streams.v *)
From Verif Require Import Base StreamSpec P_Stream M_StringStream P_StringStream M_Buffered BufferedSpec P_Buffered P_Buffered2.

(** StringStream never fails, its size is constant and reset is exact *)
Section SS.
Context {A : Type}.
Variable content : list A.
Hypothesis Hlen : zlen content <= INT32_MAX.
Lemma ss_exec s v c : ss_R content s v -> call_ok content INT32_MAX c ->
  exists s' ob, exec ss_ops s c = Ret (s', ob) /\ ss_R content s' (next_view v c ob) /\
    good_obs content False v c ob /\ ob_size ob = zlen content /\
    (forall p, c = Reset p -> ob_ret ob = p).
Proof.
  intros HR Hc. assert (HR0 := HR). destruct HR0 as (Hd & Hs & Hp & Hv & He & Hf).
  destruct (sim_step _ _ _ _ _ (ss_sim content Hlen) s v c HR Hc) as (s' & ob & E & Hres).
  exists s', ob. split; [exact E|].
  assert (forall p, c = Reset p -> ob_ret ob = p) as Hreset.
  { intros p ->. cbn [exec ss_ops o_reset] in E. unfold ss_reset in E. cbn [call_ok] in Hc.
    destruct (Z.ltb_spec p 0); [lia|]. destruct (Z.ltb_spec p (ss_size s)); cbn [bind] in E; injection E as <- <-; cbn; lia. }
  assert (is_error (ob_st ob) = false) as Hne.
  { destruct Hres as [[G _]|[B1 B2]]; [destruct G as [G _]; apply is_error_false; exact G|].
    destruct c as [mn mx|n|p]; try tauto.
    destruct (exec_status _ _ _ _ _ E) as (E1 & _). cbn [exec ss_ops o_skip] in E.
    unfold ss_skip in E. destruct (n =? 0).
    { cbn [bind] in E. injection E as <- <-. cbn in *. apply is_error_false; exact He. }
    unfold ss_read in E. destruct (_ =? 0) in E.
    { cbn [bind] in E. injection E as <- <-. reflexivity. }
    match type of E with context [if ?b then _ else UB] => destruct b end; cbn [bind] in E; [|discriminate].
    injection E as <- <-. cbn in *. destruct (_ =? _); [reflexivity|apply is_error_false; exact He]. }
  destruct Hres as [[G HR']|[B _]]; [|rewrite B in Hne; discriminate].
  split; [exact HR'|]. split; [exact G|]. split; [|exact Hreset].
  destruct (exec_status _ _ _ _ _ E) as (_ & _ & E3). rewrite E3. apply HR'.
Qed.
Lemma ss_eof s v c s' ob : ss_R content s v -> (ss_st s = Eof <-> ss_pos s = zlen content) -> call_ok content INT32_MAX c ->
  exec ss_ops s c = Ret (s', ob) -> ss_st s' = Eof <-> ss_pos s' = zlen content.
Proof.
  intros (Hd & Hs & Hp & Hv & He & Hf) Hi Hc E.
  assert (forall mn mx x, ss_read s mn mx = Ret x -> ss_st (fst (fst x)) = Eof <-> ss_pos (fst (fst x)) = zlen content) as Hr.
  { intros mn mx x E1. unfold ss_read in E1. destruct (Z.eqb_spec (ss_size s - ss_pos s) 0) as [Q|Q].
    { injection E1 as <-. cbn. split; [lia|reflexivity]. }
    match type of E1 with (if ?b then _ else _) = _ => destruct b end; [|discriminate].
    match type of E1 with context [if ?b then wrap32 ?l else mx] => set (k := if b then wrap32 l else mx) in * end.
    injection E1 as <-. cbn. rewrite Hs. destruct (Z.eqb_spec (ss_pos s + k) (zlen content)); [tauto|].
    split; [|tauto]. intros W. exfalso. apply Hi in W. lia. }
  destruct c as [mn mx|n|p]; cbn [exec ss_ops o_read o_skip o_reset] in E.
  - destruct (ss_read s mn mx) as [x| | |] eqn:E1; cbn [bind] in E; try discriminate.
    specialize (Hr _ _ _ E1). destruct x as [[a b] d]. injection E as <- <-. exact Hr.
  - unfold ss_skip in E. destruct (n =? 0); [injection E as <- <-; exact Hi|].
    destruct (ss_read s (wrap32 n) (wrap32 n)) as [x| | |] eqn:E1; cbn [bind] in E; try discriminate.
    specialize (Hr _ _ _ E1). destruct x as [[a b] d]. injection E as <- <-. exact Hr.
  - unfold ss_reset in E. cbn [call_ok] in Hc. destruct (Z.ltb_spec p 0); [lia|].
    destruct (Z.ltb_spec p (ss_size s)); cbn [bind] in E; injection E as <- <-; cbn; rewrite ?Hs in *; (split; intros W; try discriminate; try reflexivity; try lia).
Qed.
Theorem ss_total : forall l s v, ss_R content s v -> (0 < zlen content -> (ss_st s = Eof <-> ss_pos s = zlen content)) ->
  Forall (call_ok content INT32_MAX) l ->
  exists s' obs, run ss_ops s l = Ret (s', obs) /\ accepts content False v l obs /\
    Forall2 (fun c ob => ob_size ob = zlen content /\ ob_st ob <> Error /\
                         (0 < zlen content -> (ob_st ob = Eof <-> ob_pos ob = zlen content)) /\
                         forall p, c = Reset p -> ob_ret ob = p) l obs.
Proof.
  induction l as [|c l IH]; intros s v HR Hi Hl.
  - exists s, []. repeat split; constructor.
  - inversion Hl as [|? ? Hc Hl']; subst. destruct (ss_exec s v c HR Hc) as (s1 & ob & E & HR1 & G & G2 & G3).
    assert (0 < zlen content -> (ss_st s1 = Eof <-> ss_pos s1 = zlen content)) as Hi1.
    { intros Q. exact (ss_eof s v c s1 ob HR (Hi Q) Hc E). }
    destruct (IH s1 _ HR1 Hi1 Hl') as (s2 & obs & E2 & A2 & F2).
    assert (G1 := G). destruct G1 as [G1 _].
    cbn [run]. rewrite E; cbn [bind]. rewrite (is_error_false _ G1), E2; cbn [bind].
    exists s2, (ob :: obs). split; [reflexivity|]. cbn [accepts]. rewrite (is_error_false _ G1). split; [split; assumption|].
    constructor; [|exact F2]. split; [assumption|]. split; [assumption|]. split; [|assumption].
    destruct (exec_status _ _ _ _ _ E) as (Q1 & Q2 & _). rewrite Q1, Q2. exact Hi1.
Qed.
End SS.

(** undeclared size of a buffered stream stays -1 until the end has been seen *)
Section SZ.
Context {S A : Type}.
Variable src : source S A.
Definition unk (x : bstream S A) : Prop := bs_size x = -1 \/ bs_st x = Eof.
Lemma unk_read x mn mx x' n d : unk x -> bs_read src x mn mx = Ret (x', n, d) -> unk x'.
Proof.
  unfold unk, bs_read. intros H E. destruct (bs_st x) eqn:Est.
  2,3: injection E as <- <- <-; rewrite Est; exact H.
  destruct H as [H|H]; [|discriminate].
  match type of E with context [if ?c then writeToBuffer src x mn ?m else Ret x] =>
    set (e := if c then writeToBuffer src x mn m else Ret x) in E end.
  assert (forall x1, e = Ret x1 -> bs_size x1 = -1) as He.
  { intros x1. unfold e. destruct (_ && _); [|intros Q; injection Q as <-; exact H].
    unfold writeToBuffer. destruct (wtb_loop _ _ _ _ _ _ _ _ _) as [[[[? ?] ?] ?]| | |]; cbn [bind]; try discriminate.
    intros Q; injection Q as <-. exact H. }
  destruct e as [x1| | |]; cbn [bind] in E; try discriminate. specialize (He x1 eq_refl).
  destruct (is_error (bs_st x1)); [injection E as <- <- <-; left; exact He|].
  destruct (buf_read _ _) as [[[b k] dd]| | |]; cbn [bind] in E; try discriminate.
  destruct (_ && _) in E; [injection E as <- <- <-; left; exact He|].
  destruct (_ && _ && _) in E; injection E as <- <- <-; [right; reflexivity|left; exact He].
Qed.
Lemma unk_skip fuel : forall x n sk x' k, unk x -> bs_skip_loop src fuel x n sk = Ret (x', k) -> unk x'.
Proof.
  induction fuel as [|f IH]; intros x n sk x' k H E; cbn [bs_skip_loop] in E.
  - destruct (n =? 0); [injection E as <- <-; exact H|discriminate].
  - destruct (n =? 0); [injection E as <- <-; exact H|].
    destruct (bs_read src x 1 _) as [[[x1 m] d]| | |] eqn:Er; cbn [bind] in E; try discriminate.
    assert (unk x1) as H1 by (eapply unk_read; eassumption).
    destruct (m <=? 0); [injection E as <- <-; exact H1|]. eapply IH; eassumption.
Qed.
Lemma unk_exec x c x' ob : unk x -> exec (bs_ops src) x c = Ret (x', ob) ->
  unk x' \/ (bs_st x = Eof).
Proof.
  intros H E. destruct c as [mn mx|n|p]; cbn [exec bs_ops o_read o_skip o_reset] in E.
  - destruct (bs_read src x mn mx) as [[[x1 m] d]| | |] eqn:Er; cbn [bind] in E; try discriminate.
    injection E as <- <-. left. eapply unk_read; eassumption.
  - destruct (bs_skip src x n) as [[x1 m]| | |] eqn:Er; cbn [bind] in E; try discriminate.
    injection E as <- <-. left. eapply unk_skip; eassumption.
  - destruct H as [H|H]; [left|right; exact H].
    destruct (bs_reset x p) as [[x1 m]| | |] eqn:Er; cbn [bind] in E; try discriminate.
    injection E as <- <-. left. unfold bs_reset in Er. destruct (p <? 0); [discriminate|].
    destruct (bs_st x); try destruct (_ && _); injection Er as <- <-; exact H.
Qed.
Lemma size_unknown_until_eof l : forall x x' obs, unk x -> bs_st x <> Eof -> run (bs_ops src) x l = Ret (x', obs) ->
  bs_size x' = -1 \/ Exists (fun ob => ob_st ob = Eof) obs.
Proof.
  induction l as [|c l IH]; intros x x' obs H Hn E; cbn [run] in E.
  - injection E as <- <-. destruct H; [left; assumption|contradiction].
  - destruct (exec (bs_ops src) x c) as [[x1 ob]| | |] eqn:Ex; cbn [bind] in E; try discriminate.
    destruct (exec_status _ _ _ _ _ Ex) as (E1 & _). cbn [bs_ops o_status] in E1.
    destruct (unk_exec _ _ _ _ H Ex) as [H1|H1]; [|contradiction].
    destruct (bs_st x1) eqn:Est.
    + rewrite E1 in E. cbn [is_error] in E.
      destruct (run (bs_ops src) x1 l) as [[x2 obs2]| | |] eqn:E2; cbn [bind] in E; try discriminate.
      injection E as <- <-. destruct (IH x1 x2 obs2) as [Q|Q]; try assumption; [congruence|left; exact Q|right; constructor 2; exact Q].
    + rewrite E1 in E. cbn [is_error] in E.
      destruct (run (bs_ops src) x1 l) as [[x2 obs2]| | |] eqn:E2; cbn [bind] in E; try discriminate.
      injection E as <- <-. right. constructor 1. exact E1.
    + rewrite E1 in E. cbn [is_error] in E. injection E as <- <-. left. destruct H1; congruence.
Qed.
(** declared size along histories *)
Lemma decl_run (content : list A) lim ds l : forall x x' obs, zlen content >= ds -> 0 < ds -> decl ds x ->
  Forall (fun c => call_ok content lim c /\ match c with Reset p => p <= ds | _ => True end) l ->
  run (bs_ops src) x l = Ret (x', obs) -> bs_size x' = ds /\ (bs_st x' <> Error -> bs_pos x' <= ds) /\
  Forall (fun ob => ob_st ob <> Error -> ob_pos ob <= ds) obs.
Proof.
  induction l as [|c l IH]; intros x x' obs Hc Hd H Hl E; cbn [run] in E.
  - injection E as <- <-. destruct H. repeat split; auto.
  - inversion Hl as [|? ? [Hc1 Hc2] Hl']; subst.
    destruct (exec (bs_ops src) x c) as [[x1 ob]| | |] eqn:Ex; cbn [bind] in E; try discriminate.
    pose proof (decl_exec src content lim ds x c x1 ob Hc Hd H Hc1 Hc2 Ex) as H1.
    destruct (exec_status _ _ _ _ _ Ex) as (E1 & E2 & _). cbn [bs_ops o_status o_pos] in E1, E2.
    assert (ob_st ob <> Error -> ob_pos ob <= ds) as Hob by (rewrite E1, E2; apply H1).
    destruct (is_error (ob_st ob)).
    + injection E as <- <-. destruct H1. repeat split; auto.
    + destruct (run (bs_ops src) x1 l) as [[x2 obs2]| | |] eqn:Er; cbn [bind] in E; try discriminate.
      injection E as <- <-. destruct (IH x1 x2 obs2) as (Q1 & Q2 & Q3); try assumption. repeat split; auto.
Qed.
End SZ.

(** makeSpace on its own: no assumption about what the buffer holds *)
Section MS.
Context {A : Type}.
Lemma makeSpace_plain (b : buf A) needed :
  0 <= b_off b -> 0 <= b_avail b -> b_off b + b_avail b <= b_size b -> b_size b <= INT32_MAX - 1 ->
  1 <= needed -> b_avail b + needed <= BUF_LIM ->
  exists b' space, makeSpace b needed = Ret (b', space) /\ needed <= space <= INT32_MAX /\
    0 <= b_off b' /\ b_avail b' = b_avail b /\ b_off b' + b_avail b' + space <= b_size b' /\
    slice (b_mem b') (b_off b') (b_avail b') = slice (b_mem b) (b_off b) (b_avail b) /\
    b_size b' <= INT32_MAX - 1.
Proof.
  intros R1 R2 R3 R4 Hn Hl. unfold BUF_LIM, INT32_MAX in *. unfold makeSpace.
  replace (negb _) with false.
  2:{ symmetry. apply negb_false_iff. rewrite !andb_true_iff, !Z.leb_le. lia. }
  destruct (Z.leb_spec needed (b_size b - b_off b - b_avail b)) as [L|L].
  { exists b, (b_size b - b_off b - b_avail b). repeat split; lia. }
  match goal with |- context [let '(b1, space1) := ?e in _] => set (e1 := e) end.
  assert (exists b1, e1 = (b1, b_size b - b_avail b) /\ b_off b1 = 0 /\ b_avail b1 = b_avail b /\ b_size b1 = b_size b /\
     slice (b_mem b1) 0 (b_avail b) = slice (b_mem b) (b_off b) (b_avail b))
    as (b1 & E1 & Ho1 & Ha1 & Hs1 & Hd1).
  { unfold e1. destruct (Z.eqb_spec (b_avail b) 0) as [E|E].
    - eexists. split; [rewrite E, Z.sub_0_r; reflexivity|]. unfold b_size in *. cbn in *. rewrite E. repeat split.
    - destruct (Z.eqb_spec (b_off b) 0) as [E0|E0].
      + exists b. rewrite E0, Z.sub_0_r. repeat split; lia.
      + eexists. split; [f_equal; lia|].
        assert (zlen (slice (b_mem b) (b_off b) (b_avail b)) = b_avail b) as Z1
          by (apply zlen_slice; unfold b_size in *; lia).
        assert (zlen (splice (b_mem b) 0 (slice (b_mem b) (b_off b) (b_avail b))) = zlen (b_mem b)) as Z2
          by (apply zlen_splice; unfold b_size in *; lia).
        unfold b_size in *. cbn [b_mem b_off b_avail] in *. rewrite Z2. repeat split.
        apply zget_ext; intros i. rewrite !zget_slice by lia. destruct (Z.leb_spec 0 i), (Z.ltb_spec i (b_avail b)); cbn [andb]; try reflexivity.
        rewrite zget_splice by lia. rewrite Z1.
        destruct (Z.leb_spec 0 (0+i)), (Z.ltb_spec (0+i) (0 + b_avail b)); try lia. cbn [andb].
        rewrite zget_slice by lia.
        destruct (Z.leb_spec 0 (0 + i - 0)), (Z.ltb_spec (0 + i - 0) (b_avail b)); try lia. cbn [andb].
        f_equal. lia. }
  rewrite E1. clear E1 e1.
  assert (forall sz, b_size b <= sz -> exists b2, setSize b1 sz = Ret b2 /\ b_off b2 = 0 /\ b_avail b2 = b_avail b /\ b_size b2 = sz /\
     slice (b_mem b2) 0 (b_avail b) = slice (b_mem b) (b_off b) (b_avail b)) as HSS.
  { intros sz Hsz. destruct (setSize_ok b1 sz) as (b2 & E2 & Ho2 & Ha2 & Hs2 & Hz2); try lia.
    exists b2. repeat split; try lia; try assumption. rewrite <- Hd1. apply zget_ext; intros i. rewrite !zget_slice by lia.
    destruct (Z.leb_spec 0 i), (Z.ltb_spec i (b_avail b)); cbn [andb]; try reflexivity. apply Hz2. lia. }
  destruct (Z.leb_spec needed (b_size b - b_avail b)).
  { exists b1, (b_size b - b_avail b). rewrite Ho1, Ha1, Hs1. repeat split; try lia; assumption. }
  rewrite chk32_ok by (unfold INT32_MIN, INT32_MAX; lia). cbn [bind].
  destruct (Z.ltb_spec (needed - (b_size b - b_avail b)) (b_size b)).
  - rewrite !chk32_ok by (unfold INT32_MIN, INT32_MAX; lia). cbn [bind].
    destruct (HSS (2 * b_size b)) as (b2 & E2 & Ho2 & Ha2 & Hs2 & Hd2); [lia|]. rewrite E2; cbn [bind].
    do 2 eexists; split; [reflexivity|]. rewrite Ho2, Ha2, Hs2. repeat split; try lia; assumption.
  - rewrite !chk32_ok by (unfold INT32_MIN, INT32_MAX; lia). cbn [bind].
    destruct (HSS (b_size b + needed - (b_size b - b_avail b))) as (b2 & E2 & Ho2 & Ha2 & Hs2 & Hd2); [lia|]. rewrite E2; cbn [bind].
    do 2 eexists; split; [reflexivity|]. rewrite Ho2, Ha2, Hs2. repeat split; try lia; assumption.
Qed.
End MS.

(** C03 along histories *)
Section PV.
Context {S A : Type}.
Variables (src : source S A) (content : list A) (fails : Prop) (SR : S -> Z -> Prop) (SE : S -> Prop).
Hypothesis Hsrc : SrcOK src content fails SR SE.
Lemma pointer_valid_run s l x obs mn mx x' n d p :
  SR s 0 -> Forall (call_ok content BUF_LIM) l -> run (bs_ops src) (bs_new s) l = Ret (x, obs) -> bs_st x <> Error ->
  1 <= mn <= BUF_LIM -> bs_read src x mn mx = Ret (x', n, d) -> 0 < n -> bs_pos x <= p <= bs_pos x + n ->
  exists x'', bs_reset x' p = Ret (x'', p) /\
    b_mem (bs_buf x'') = b_mem (bs_buf x') /\
    slice (b_mem (bs_buf x'')) (b_off (bs_buf x') - n) n = map Some d /\
    (forall mn2 mx2, 1 <= mn2 <= BUF_LIM -> p < bs_pos x + n ->
       exists y k d2, bs_read src x'' mn2 mx2 = Ret (y, k, d2) /\
         (0 < k /\ (forall i, 0 <= i < Z.min k (bs_pos x + n - p) -> zget d2 i = zget d (p - bs_pos x + i))
          \/ k = -2 /\ bs_st y = Error /\ fails)).
Proof.
  intros Hs Hl Hrun Hst Hmn Hr Hn Hp.
  assert (bs_R content fails SR SE (bs_new s) view0) as H0.
  { apply bs_init_R. unfold bs_init_ok, bs_new; cbn. repeat split; try assumption.
    - change (b_size (@buf0 A) <= 2 * BUF_LIM - 1). unfold b_size, buf0, BUF_LIM; cbn [b_mem]. change (zlen (@nil (option A))) with 0. lia.
    - tauto. }
  destruct (sim_run _ _ _ _ _ _ _ _ _ _ (bs_sim src content fails SR SE Hsrc) H0 Hl Hrun Hst) as (v & (Hv & HC & _)).
  assert (HC' := HC). destruct HC' as (Hrep & Hpos & _).
  rewrite Hpos in *.
  destruct (bs_read_core src content fails SR SE Hsrc x (v_pos v) mn mx HC Hmn) as (x1 & n1 & d1 & E1 & Hres).
  rewrite Hr in E1. injection E1 as <- <- <-.
  destruct Hres as [(_ & _ & Q)|[(Q1 & Q2 & Q3 & Q4 & _)|(Q & _)]]; [lia| |lia].
  destruct (bs_pointer_valid src content fails SR SE Hsrc x (v_pos v) mn mx x' n d p HC Hmn Hr Hn Hp) as (x2 & E2 & M1 & M2 & C2 & _).
  exists x2. split; [exact E2|]. split; [exact M1|]. split; [exact M2|].
  intros mn2 mx2 Hmn2 Hlt.
  destruct (bs_read_core src content fails SR SE Hsrc x2 p mn2 mx2 C2 Hmn2) as (y & k & d2 & E3 & Hres).
  exists y, k, d2. split; [exact E3|]. destruct Hres as [(W1 & W2 & W3)|[(W1 & W2 & W3 & W4 & _)|(W1 & W2 & W3 & W4 & _)]].
  - right. tauto.
  - left. split; [exact W1|]. intros i Hi. rewrite W3, Q3. destruct Hrep as (Y1 & Y2 & Y3 & Y4 & Y5 & _). rewrite !zget_slice by lia.
    destruct (Z.leb_spec 0 i), (Z.ltb_spec i k), (Z.leb_spec 0 (p - v_pos v + i)), (Z.ltb_spec (p - v_pos v + i) n); cbn [andb]; try lia.
    f_equal; lia.
  - lia.
Qed.
End PV.

(** termination of draining *)
Lemma drain_ends {St A} (o : ops St A) content (fails : Prop) lim s v l :
  Conforms o content fails lim s v -> ~ fails -> Forall (call_ok content lim) l -> Forall is_read l ->
  zlen content - v_pos v < Z.of_nat (length l) ->
  exists s' obs, run o s l = Ret (s', obs) /\ Exists (fun ob => ob_ret ob = -1) obs /\
    datas obs = slice content (v_pos v) (zlen content - v_pos v).
Proof.
  intros (Hv & Hp & H) Hnf Hl Hr Hlen. destruct (H l Hl) as (s' & obs & E & Hacc).
  exists s', obs. split; [exact E|]. split.
  - clear E H Hp. revert v obs Hv Hlen Hacc; induction l as [|c l IH]; intros v obs Hv Hlen Hacc.
    + cbn in Hlen. unfold view_ok in Hv. lia.
    + destruct obs as [|ob obs]; [contradiction|]. cbn [accepts] in Hacc.
      inversion Hl; inversion Hr; subst. destruct c as [mn mx| |]; try contradiction.
      destruct (is_error (ob_st ob)) eqn:Er. { destruct Hacc as [[_ [HF _]] _]. contradiction. }
      destruct Hacc as [G Hacc]. assert (Hv' := good_view_ok content fails lim _ _ _ Hv H1 G).
      destruct G as (G1 & G2 & G3 & G4 & [(R1 & R2 & R3 & R4 & R5)|(R1 & R2 & R3 & R4)]).
      * right. apply (IH H2 H6 _ _ Hv'); [|exact Hacc]. cbn [next_view]. destruct (Z.ltb_spec 0 (ob_ret ob)); [|lia]. cbn [v_pos]. cbn [length] in Hlen. lia.
      * left. exact R1.
  - destruct (accepts_reads_prefix content fails lim l obs v Hv Hnf Hl Hr Hacc) as (n & H0 & H1 & H2 & H3).
    rewrite H2. f_equal. unfold view_ok in Hv. lia.
Qed.
