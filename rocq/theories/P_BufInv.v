(** What survives every call on a BufferedStream, also a failing one: an invariant of the source that
    fillBuffer keeps, and the bound on the memory block.  Calls outside the contents of the stream. *)
From Verif Require Import Base StreamSpec P_Stream M_Buffered BufferedSpec P_Buffered ArchiveSpec.

Section I.
Context {S A : Type}.
Variables (src : source S A) (J : S -> Prop).
Hypothesis HJ : forall s space s' n d e, J s -> fill src s space = Ret (s', n, d, e) -> J s'.
Definition small_buf (b : buf A) : Prop := b_size b <= 2 * BUF_LIM - 1.

Lemma bind_ret {X Y} (x : out X) (f : X -> out Y) y : bind x f = Ret y -> exists a, x = Ret a /\ f a = Ret y.
Proof. destruct x; cbn; intros H; try discriminate. eauto. Qed.

Lemma setSize_size (b : buf A) sz b' : setSize b sz = Ret b' -> b_size b' = sz \/ b_size b' = b_size b /\ sz <= b_size b.
Proof.
  unfold setSize. destruct (_ && _) eqn:E; [|discriminate]. intros H; injection H as <-.
  rewrite !andb_true_iff, !Z.leb_le in E. unfold b_size. cbn [b_mem]. rewrite zlen_app, zlen_repeat. unfold b_size, zlen in *. rewrite firstn_length.
  lia.
Qed.
Lemma makeSpace_small b needed b' sp : small_buf b -> 1 <= needed -> b_avail b + needed <= BUF_LIM ->
  makeSpace b needed = Ret (b', sp) -> small_buf b' /\ b_avail b' = b_avail b.
Proof.
  intros HS Hn Hl. unfold makeSpace. destruct (negb _) eqn:E; [discriminate|].
  apply negb_false_iff in E. rewrite !andb_true_iff, !Z.leb_le in E.
  destruct (Z.leb_spec needed (b_size b - b_off b - b_avail b)); [intros H1; injection H1 as <- <-; tauto|].
  match goal with |- context [let '(b1, space1) := ?e in _] => set (e1 := e) end.
  assert (exists b1, e1 = (b1, b_size b - b_avail b) /\ b_size b1 = b_size b /\ b_avail b1 = b_avail b) as (b1 & E1 & Q1 & Q2).
  { unfold e1. destruct (Z.eqb_spec (b_avail b) 0) as [E0|E0].
    - eexists. split; [rewrite E0, Z.sub_0_r; reflexivity|]. cbn. unfold b_size. cbn. lia.
    - destruct (Z.eqb_spec (b_off b) 0) as [E2|E2].
      + exists b. split; [f_equal; lia|]. tauto.
      + eexists. split; [f_equal; lia|]. split; [|reflexivity]. unfold b_size in *. cbn [b_mem]. apply zlen_splice; [lia|].
        rewrite zlen_slice; lia. }
  rewrite E1. cbv zeta. destruct (Z.leb_spec needed (b_size b - b_avail b)).
  { intros H2; injection H2 as <- <-. unfold small_buf. rewrite Q1. tauto. }
  intros H2. apply bind_ret in H2 as (d & Hd & H2). destruct (d <? b_size b).
  - apply bind_ret in H2 as (s2 & Hs2 & H2). apply bind_ret in H2 as (sz & Hsz & H2). apply bind_ret in H2 as (b2 & Hb2 & H2).
    injection H2 as <- <-. assert (Hav : b_avail b2 = b_avail b1) by (unfold setSize in Hb2; destruct (_ && _); [injection Hb2 as <-; reflexivity|discriminate]).
    apply setSize_size in Hb2. assert (sz = 2 * b_size b) as -> by (unfold chk32 in Hsz; destruct (i32 (2 * b_size b)); congruence).
    unfold small_buf, BUF_LIM in *. lia.
  - apply bind_ret in H2 as (s2 & Hs2 & H2). apply bind_ret in H2 as (b2 & Hb2 & H2).
    injection H2 as <- <-. assert (Hav : b_avail b2 = b_avail b1) by (unfold setSize in Hb2; destruct (_ && _); [injection Hb2 as <-; reflexivity|discriminate]).
    apply setSize_size in Hb2. unfold chk32 in Hs2. destruct (i32 (b_size b + needed)); [injection Hs2 as <-|discriminate].
    unfold small_buf, BUF_LIM in *. lia.
Qed.
Lemma buf_write_size (b b' : buf A) d : buf_write b d = Ret b' -> b_size b' = b_size b /\ b_avail b' = b_avail b.
Proof.
  unfold buf_write. destruct (_ && _) eqn:E; [|discriminate]. intros H; injection H as <-. rewrite andb_true_iff, !Z.leb_le in E.
  split; [|reflexivity]. unfold b_size. cbn [b_mem]. apply zlen_splice; rewrite ?zlen_map; unfold b_size in *; lia.
Qed.
Lemma wtb_inv ntoread maxread : ntoread <= BUF_LIM -> forall fuel b s st missing nwritten b' s' st' nw,
  J s -> small_buf b -> missing = ntoread - b_avail b ->
  wtb_loop src fuel b s st ntoread maxread missing nwritten = Ret (b', s', st', nw) -> J s' /\ small_buf b'.
Proof.
  intros HL. induction fuel as [|f IH]; intros b s st missing nwritten b' s' st' nw HJs HS Hm; cbn [wtb_loop].
  - destruct (_ && _); [discriminate|]. intros H; injection H as <- <- <- <-. tauto.
  - destruct ((0 <? missing) && (0 <=? nwritten)) eqn:E; [|intros H; injection H as <- <- <- <-; tauto].
    rewrite andb_true_iff, Z.ltb_lt, Z.leb_le in E. intros H.
    apply bind_ret in H as ((b1 & sp) & H1 & H). apply makeSpace_small in H1 as (Q1 & Q2); [|assumption|lia|lia].
    apply bind_ret in H as ((((s1 & n) & d) & err) & H2 & H). apply HJ in H2; [|assumption].
    apply bind_ret in H as (b2 & H3 & H). apply buf_write_size in H3 as (Q3 & Q4).
    destruct (0 <? n).
    + eapply IH; [exact H2| |reflexivity|exact H]. unfold small_buf, b_size in *. cbn [b_mem]. lia.
    + eapply IH; [exact H2| | |exact H]; [unfold small_buf in *; lia|]. lia.
Qed.
Definition binv (x : bstream S A) : Prop := J (bs_src x) /\ small_buf (bs_buf x).
Lemma read_inv x mn mx x' n d : binv x -> mn <= BUF_LIM -> bs_read src x mn mx = Ret (x', n, d) -> binv x'.
Proof.
  intros HB Hmn H. unfold bs_read in H. destruct (bs_st x); [|injection H as <- _ _; exact HB|injection H as <- _ _; exact HB].
  cbv zeta in H. apply bind_ret in H as (x1 & H1 & H).
  assert (binv x1) as HB1.
  { destruct (_ && _); [|injection H1 as <-; exact HB]. unfold writeToBuffer in H1. cbv zeta in H1.
    apply bind_ret in H1 as ((((b & s) & st) & nw) & H2 & H3). injection H3 as <-. destruct HB as [HB1 HB2].
    apply wtb_inv in H2; [exact H2|exact Hmn|assumption|assumption|reflexivity]. }
  destruct (is_error (bs_st x1)); [injection H as <- _ _; exact HB1|].
  apply bind_ret in H as (((b & k) & dd) & H2 & H). unfold binv, small_buf in *.
  assert (b_size b = b_size (bs_buf x1)) as Hb.
  { unfold buf_read in H2. match type of H2 with (if ?c then _ else _) = _ => destruct c end; [discriminate|]. cbv zeta in H2.
    match type of H2 with context [all_some ?l] => destruct (all_some l) end; [|discriminate]. injection H2 as <- _ _. reflexivity. }
  repeat match type of H with (if ?c then _ else _) = _ => destruct c end; injection H as <- _ _; cbn [bs_src bs_buf]; rewrite Hb; exact HB1.
Qed.
Lemma skip_inv : forall fuel x n sk x' k, binv x -> bs_skip_loop src fuel x n sk = Ret (x', k) -> binv x'.
Proof.
  induction fuel as [|f IH]; intros x n sk x' k HB; cbn [bs_skip_loop]; destruct (n =? 0); try discriminate; try (intros H; injection H as <- <-; exact HB).
  cbv zeta. intros H. apply bind_ret in H as (((x1 & nr) & d) & H1 & H). apply read_inv in H1; [|exact HB|unfold BUF_LIM; lia].
  destruct (nr <=? 0); [injection H as <- <-; exact H1|]. eapply IH; eassumption.
Qed.
Lemma reset_inv x p x' r : binv x -> bs_reset x p = Ret (x', r) -> binv x'.
Proof.
  intros HB. unfold bs_reset. destruct (p <? 0); [discriminate|]. cbv zeta.
  destruct (bs_st x); try (intros H; injection H as <- <-; exact HB); (destruct (_ && _); intros H; injection H as <- <-; [|exact HB]); exact HB.
Qed.
Lemma exec_inv x c x' ob : binv x -> any_call BUF_LIM c -> exec (bs_ops src) x c = Ret (x', ob) -> binv x'.
Proof.
  intros HB Hc. destruct c as [mn mx|n|p]; cbn [exec bs_ops o_read o_skip o_reset any_call] in *; intros H.
  - apply bind_ret in H as (((x1 & n) & d) & H1 & H). injection H as <- <-. eapply read_inv; [exact HB| |exact H1]. lia.
  - apply bind_ret in H as ((x1 & k) & H1 & H). injection H as <- <-. eapply skip_inv; [exact HB|exact H1].
  - apply bind_ret in H as ((x1 & k) & H1 & H). injection H as <- <-. eapply reset_inv; [exact HB|exact H1].
Qed.
Lemma run_inv l : forall x x' obs, binv x -> Forall (any_call BUF_LIM) l -> run (bs_ops src) x l = Ret (x', obs) -> binv x'.
Proof.
  induction l as [|c l IH]; intros x x' obs HB Hl H; cbn [run] in H; [injection H as <- _; exact HB|].
  inversion Hl; subst. apply bind_ret in H as ((x1 & ob) & H1 & H). apply exec_inv in H1; [|assumption..].
  destruct (is_error (ob_st ob)); [injection H as <- _; exact H1|]. apply bind_ret in H as ((x2 & obs2) & H4 & H). injection H as <- _. eapply IH; eassumption.
Qed.
End I.

(** ** calls that are not limited to the contents *)
Section Any.
Context {S A : Type}.
Variables (src : source S A) (content : list A) (fails : Prop) (SR : S -> Z -> Prop) (SE : S -> Prop).
Hypothesis HS : SrcOK src content fails SR SE.
Lemma any_step x v c : bs_R content fails SR SE x v -> any_call BUF_LIM c ->
  step_sim (bs_ops src) content fails (bs_R content fails SR SE) x v c.
Proof.
  intros HR Hc. destruct c as [mn mx|n|p]; cbn [any_call] in Hc.
  - destruct HR as (Hv & HC & Hlo & Hhi).
    destruct (bs_read_core src content fails SR SE HS x (v_pos v) mn mx HC) as (x' & n & d & E & Hres); [lia|].
    destruct (Z.le_gt_cases mn mx) as [Hmx|Hmx].
    { apply (sim_step _ _ _ _ _ (bs_sim src content fails SR SE HS)); [split; [exact Hv|tauto]|cbn; lia]. }
    assert (bs_read src x mn mx = bs_read src x mn 0) as E0.
    { unfold bs_read. destruct (Z.ltb_spec mx mn); [|lia]. destruct (Z.ltb_spec 0 mn); [reflexivity|lia]. }
    destruct (sim_step _ _ _ _ _ (bs_sim src content fails SR SE HS) x v (Read mn 0)) as (s' & ob & Ex & HH);
      [split; [exact Hv|tauto]|cbn; unfold INT32_MIN in *; lia|].
    exists s', ob. split; [cbn [exec bs_ops o_read] in *; rewrite E0; exact Ex|].
    destruct HH as [[G HR']|B]; [left|right].
    + split; [|exact HR']. unfold good_obs in *. cbn [next_view] in *. destruct G as (G1 & G2 & G3 & G4 & G5).
      split; [exact G1|]. split; [exact G2|]. split; [exact G3|]. split; [exact G4|].
      destruct G5 as [(R1 & R2 & R3 & R4 & R5)|G5]; [left|right; exact G5].
      do 3 (split; [assumption|]). split; [intros; lia|exact R5].
    + exact B.
  - apply (sim_step _ _ _ _ _ (bs_sim src content fails SR SE HS)); [exact HR|cbn; lia].
  - destruct (Z.le_gt_cases p (zlen content)) as [L|L].
    { apply (sim_step _ _ _ _ _ (bs_sim src content fails SR SE HS)); [exact HR|cbn; lia]. }
    assert (HR' := HR). destruct HR as (Hv & HC & Hlo & Hhi). assert (HC' := HC). destruct HC as (T1 & T2 & T3 & T4 & T5 & T6 & T7).
    assert (T1' := T1). destruct T1' as (r1&r2&r3&r4&r5&r6&r7).
    unfold step_sim. cbn [exec bs_ops o_reset]. unfold bs_reset. destruct (Z.ltb_spec p 0); [lia|]. cbv zeta.
    assert ((bs_pos x - p <=? b_off (bs_buf x)) && (- (bs_pos x - p) <=? b_avail (bs_buf x)) = false) as ->.
    { apply andb_false_iff. right. apply Z.leb_gt. lia. }
    unfold view_ok in Hv.
    assert (match bs_st x with Error => @Ret (bstream S A * Z) (x, -2) | _ => Ret (x, bs_pos x) end = Ret (x, bs_pos x)) as -> by (destruct (bs_st x); [reflexivity|reflexivity|congruence]).
    cbn [bind]. do 2 eexists. split; [reflexivity|]. left.
    unfold good_obs. cbn [observe ob_ret ob_data ob_st ob_pos ob_size o_pos o_size o_status bs_ops next_view].
    assert ((v_lo v <=? p) && (p <=? v_hi v) = false) as -> by (apply andb_false_iff; right; apply Z.leb_gt; lia).
    cbn [v_pos]. rewrite T2. split.
    + split; [exact T3|]. split; [exact T6|]. split; [reflexivity|]. split; [exact T7|]. split; [reflexivity|]. lia.
    + split; [unfold view_ok; cbn; lia|]. cbn [v_pos v_lo v_hi]. split; [exact HC'|]. lia.
Qed.
Lemma any_run l : forall x v, bs_R content fails SR SE x v -> Forall (any_call BUF_LIM) l ->
  exists x' obs, run (bs_ops src) x l = Ret (x', obs) /\ accepts content fails v l obs.
Proof.
  induction l as [|c l IH]; intros x v HR Hl; cbn [run]; [do 2 eexists; split; [reflexivity|exact I]|].
  inversion Hl; subst. destruct (any_step x v c HR H1) as (x1 & ob & E & HH). rewrite E. cbn [bind].
  destruct HH as [[G HR1]|B].
  - assert (G' := G). destruct G' as (G1 & _). rewrite (is_error_false _ G1).
    destruct (IH x1 _ HR1 H2) as (x2 & obs & E2 & Hacc). rewrite E2. cbn [bind]. do 2 eexists. split; [reflexivity|].
    cbn [accepts]. rewrite (is_error_false _ G1). tauto.
  - assert (B' := B). destruct B' as [B1 _]. rewrite B1. cbn [is_error]. do 2 eexists. split; [reflexivity|]. cbn [accepts]. rewrite B1. cbn [is_error]. tauto.
Qed.
End Any.
