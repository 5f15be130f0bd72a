(** Further facts about buffered streams: pointer validity (C03), size and status
    bookkeeping (C04). *)
From Verif Require Import Base StreamSpec P_Stream M_Buffered BufferedSpec P_Buffered.

Section Any.
Context {S A : Type}.
Variable src : source S A.

Lemma bs_read_size (x : bstream S A) mn mx x' n d : bs_read src x mn mx = Ret (x', n, d) ->
  (bs_size x <> -1 -> bs_size x' = bs_size x) /\
  (0 < bs_size x -> bs_pos x <= bs_size x -> bs_st x' <> Error -> bs_pos x' <= bs_size x).
Proof.
  unfold bs_read. destruct (bs_st x) eqn:Est.
  2,3: intros E; injection E as <- <- <-; split; auto.
  match goal with |- context [if ?c then writeToBuffer src x mn ?m else Ret x] =>
    set (e := if c then writeToBuffer src x mn m else Ret x) end.
  assert (forall x1, e = Ret x1 -> bs_size x1 = bs_size x /\ bs_pos x1 = bs_pos x) as He.
  { intros x1. unfold e. destruct (_ && _).
    - unfold writeToBuffer. destruct (wtb_loop _ _ _ _ _ _ _ _ _) as [[[[b s] st] nw]| | |]; cbn [bind]; try discriminate.
      intros E; injection E as <-. split; reflexivity.
    - intros E; injection E as <-. split; reflexivity. }
  destruct e as [x1| | |]; cbn [bind]; try discriminate.
  destruct (He x1 eq_refl) as [Hz Hp].
  destruct (is_error (bs_st x1)) eqn:Er.
  { intros E; injection E as <- <- <-. apply is_error_true in Er. rewrite Hz, Hp. split; [auto|]. intros _ _ H; congruence. }
  destruct (buf_read _ _) as [[[b m] dd]| | |]; cbn [bind]; try discriminate.
  rewrite Hz, Hp.
  destruct ((bs_size x <? bs_pos x + m) && (0 <? bs_size x)) eqn:El.
  { intros E; injection E as <- <- <-. cbn. split; [auto|]. congruence. }
  assert (0 < bs_size x -> bs_pos x + m <= bs_size x) as Hle.
  { intros H. destruct (Z.ltb_spec (bs_size x) (bs_pos x + m)); [|lia]. destruct (Z.ltb_spec 0 (bs_size x)); [discriminate|lia]. }
  destruct (_ && _ && _); intros E; injection E as <- <- <-; cbn; (split; [|auto]); [|auto].
  intros H. destruct (Z.eqb_spec (bs_size x) (-1)); congruence.
Qed.

(** invariant form for all three calls *)
Definition decl (ds : Z) (x : bstream S A) : Prop := bs_size x = ds /\ (bs_st x <> Error -> bs_pos x <= ds).
Lemma bs_read_err_sticky (x : bstream S A) mn mx : bs_st x = Error -> bs_read src x mn mx = Ret (x, -2, []).
Proof. intros E. unfold bs_read. rewrite E. reflexivity. Qed.
Lemma decl_read ds x mn mx x' n d : 0 < ds -> decl ds x -> bs_read src x mn mx = Ret (x', n, d) -> decl ds x'.
Proof.
  intros Hd [H1 H2] E. destruct (bs_st x) eqn:Est.
  3:{ rewrite bs_read_err_sticky in E by exact Est. injection E as <- <- <-. split; [exact H1|congruence]. }
  all: destruct (bs_read_size _ _ _ _ _ _ E) as [Q1 Q2]; split; [rewrite Q1; [exact H1|lia]|].
  all: intros Hne; rewrite <- H1; apply Q2; try assumption; try lia; rewrite H1; apply H2; congruence.
Qed.
Lemma decl_skip ds : 0 < ds -> forall fuel x n sk x' k, decl ds x -> bs_skip_loop src fuel x n sk = Ret (x', k) -> decl ds x'.
Proof.
  intros Hd. induction fuel as [|f IH]; intros x n sk x' k H E; cbn [bs_skip_loop] in E.
  - destruct (n =? 0); [injection E as <- <-; exact H|discriminate].
  - destruct (n =? 0); [injection E as <- <-; exact H|].
    destruct (bs_read src x 1 _) as [[[x1 m] d]| | |] eqn:Er; cbn [bind] in E; try discriminate.
    assert (decl ds x1) as H1 by (eapply decl_read; eassumption).
    destruct (m <=? 0); [injection E as <- <-; exact H1|]. eapply IH; eassumption.
Qed.
Lemma decl_exec content lim ds x c x' ob : zlen content >= ds -> 0 < ds -> decl ds x ->
  call_ok (A:=A) content lim c -> (match c with Reset p => p <= ds | _ => True end) ->
  exec (bs_ops src) x c = Ret (x', ob) -> decl ds x'.
Proof.
  intros Hcd Hd H Hc Hp E. destruct c as [mn mx|n|p]; cbn [exec bs_ops o_read o_skip o_reset] in E.
  - destruct (bs_read src x mn mx) as [[[x1 m] d]| | |] eqn:Er; cbn [bind] in E; try discriminate.
    injection E as <- <-. eapply decl_read; eassumption.
  - destruct (bs_skip src x n) as [[x1 m]| | |] eqn:Er; cbn [bind] in E; try discriminate.
    injection E as <- <-. eapply decl_skip; eassumption.
  - destruct (bs_reset x p) as [[x1 m]| | |] eqn:Er; cbn [bind] in E; try discriminate.
    injection E as <- <-. unfold bs_reset in Er. destruct (p <? 0); [discriminate|].
    destruct H as [H1 H2]. destruct (bs_st x) eqn:Est.
    3:{ injection Er as <- <-. split; [exact H1|congruence]. }
    all: destruct (_ && _); injection Er as <- <-; split; try exact H1; try (rewrite Est; intros _; apply H2; congruence); cbn; intros _; lia.
Qed.
End Any.

Section P.
Context {S A : Type}.
Variables (src : source S A) (content : list A) (fails : Prop) (SR : S -> Z -> Prop) (SE : S -> Prop).
Hypothesis Hsrc : SrcOK src content fails SR SE.

(** C03 *)
Lemma bs_pointer_valid x pos mn mx x' n d p :
  bs_core content fails SR SE x pos -> 1 <= mn <= BUF_LIM ->
  bs_read src x mn mx = Ret (x', n, d) -> 0 < n -> pos <= p <= pos + n ->
  exists x'', bs_reset x' p = Ret (x'', p) /\
    b_mem (bs_buf x'') = b_mem (bs_buf x') /\
    slice (b_mem (bs_buf x'')) (b_off (bs_buf x') - n) n = map Some d /\
    bs_core content fails SR SE x'' p /\ pos + n - p <= b_avail (bs_buf x'').
Proof.
  intros HC Hmn E Hn Hp.
  destruct (bs_read_core src content fails SR SE Hsrc x pos mn mx HC Hmn) as (x1 & n1 & d1 & E1 & Hres).
  rewrite E in E1. injection E1 as <- <- <-.
  destruct Hres as [(_ & _ & Q)|[(Q1 & Q2 & Q3 & Q4 & Q5 & Q6 & Q7 & _)|(Q & _)]]; [lia| |lia].
  assert (Q2' := Q2). destruct Q2' as (T1 & T2 & T3 & T4 & T5 & T6 & T7).
  assert (T1' := T1). destruct T1' as (U1&U2&U3&U4&U5&U6&U7).
  destruct HC as ((V1&V2&V3&V4&V5&V6&_)&_).
  unfold bs_reset. destruct (Z.ltb_spec p 0); [lia|].
  destruct (bs_st x') eqn:Est; [| |congruence].
  all: rewrite T2; destruct (Z.leb_spec (pos + n - p) (b_off (bs_buf x'))); [|lia];
    destruct (Z.leb_spec (- (pos + n - p)) (b_avail (bs_buf x'))); [|lia]; cbn [andb];
    eexists; (split; [f_equal; f_equal; lia|]); cbn [bs_buf b_mem]; (split; [reflexivity|]).
  all: split; [rewrite Q3; apply zget_ext; intros i; rewrite zget_map, !zget_slice by lia;
    destruct (Z.leb_spec 0 i), (Z.ltb_spec i n); cbn [andb option_map]; try reflexivity;
    rewrite U7 by lia; replace (pos + n - b_off (bs_buf x') + (b_off (bs_buf x') - n + i)) with (pos + i) by lia;
    destruct (zget_some content (pos + i)) as [y Ey]; [lia|]; rewrite Ey; reflexivity|].
  all: rewrite wrap32_id by (unfold INT32_MIN, INT32_MAX, BUF_LIM in *; lia);
    split; [|cbn; lia].
  all: unfold bs_core; cbn [bs_buf bs_pos bs_st bs_fin bs_src bs_size];
    replace (pos + n - (pos + n - p)) with p by lia;
    unfold rep; unfold b_size in *; cbn [b_mem b_off b_avail];
    replace (p + (b_avail (bs_buf x') + (pos + n - p))) with (pos + n + b_avail (bs_buf x')) by lia;
    (split; [|split; [reflexivity|split; [congruence|split; [exact T4|split; [exact T5|split; [congruence|exact T7]]]]]]).
  all: repeat split; try lia; intros i Hi; rewrite U7 by lia; f_equal; f_equal; lia.
Qed.

(** C04: streams without announced size *)
Definition sz_inv (x : bstream S A) : Prop :=
  (bs_size x = -1 \/ bs_size x = zlen content) /\ (bs_st x = Eof -> bs_size x = zlen content).
Definition bs_R4 x v := bs_R content fails SR SE x v /\ sz_inv x.

Lemma sz_read x pos mn mx x' n d : bs_core content fails SR SE x pos -> sz_inv x -> 1 <= mn <= BUF_LIM ->
  bs_read src x mn mx = Ret (x', n, d) -> bs_st x' <> Error -> sz_inv x'.
Proof.
  intros HC [J1 J2] Hmn E Hne.
  destruct (bs_read_size src _ _ _ _ _ _ E) as [Z1 _].
  destruct (bs_read_core src content fails SR SE Hsrc x pos mn mx HC Hmn) as (x1 & n1 & d1 & E1 & Hres).
  rewrite E in E1. injection E1 as <- <- <-.
  destruct Hres as [(Q & _)|[(Q1 & Q2 & Q3 & Q4 & Q5 & Q6 & Q7 & _ & Q8 & Q9)|(Q1 & Q2 & Q3 & Q4 & Q5 & Q6 & Q7)]]; [congruence| |].
  - destruct J1 as [J1|J1].
    + destruct Q2 as (_ & _ & _ & _ & _ & T6 & _). destruct (bs_st x') eqn:Es; [| |congruence].
      * split; [left; apply Q9; auto|congruence].
      * specialize (Q8 J1 eq_refl). rewrite (T6 eq_refl) in Q8. split; [right; exact Q8|intros; exact Q8].
    + pose proof (zlen_nonneg content). unfold sz_inv. rewrite Z1 by lia. rewrite J1. split; [right; reflexivity|reflexivity].
  - destruct (bs_st x) eqn:Ex.
    + destruct J1 as [J1|J1].
      * specialize (Q6 eq_refl J1). split; [right; lia|intros; lia].
      * pose proof (zlen_nonneg content). unfold sz_inv. rewrite Z1 by lia. split; [right; exact J1|intros; exact J1].
    + rewrite (Q7 eq_refl). split; [exact J1|intros; apply J2; reflexivity].
    + destruct HC as (_ & _ & HC & _). congruence.
Qed.

Lemma sz_skip : forall fuel x pos n sk x' k, bs_core content fails SR SE x pos -> sz_inv x ->
  bs_skip_loop src fuel x n sk = Ret (x', k) -> bs_st x' <> Error -> sz_inv x'.
Proof.
  induction fuel as [|f IH]; intros x pos n sk x' k HC J E Hne; cbn [bs_skip_loop] in E.
  - destruct (n =? 0); [injection E as <- <-; exact J|discriminate].
  - destruct (n =? 0); [injection E as <- <-; exact J|].
    match type of E with context [bs_read src x 1 ?st] => set (stp := st) in E end.
    destruct (bs_read_core src content fails SR SE Hsrc x pos 1 stp HC) as (x1 & m & d & E1 & Hres); [unfold BUF_LIM; lia|].
    rewrite E1 in E; cbn [bind] in E.
    destruct Hres as [(Q1 & Q2 & Q3)|[(Q1 & Q2 & Q3 & _)|(Q1 & Q2 & Q3 & Q4 & Q5 & _)]].
    + subst m. cbn in E. injection E as <- <-. congruence.
    + destruct (Z.leb_spec m 0); [lia|]. eapply IH; [exact Q2| |exact E|exact Hne].
      eapply sz_read; [exact HC|exact J| |exact E1|]; [unfold BUF_LIM; lia|]. destruct Q2 as (_ & _ & Q & _); exact Q.
    + subst m. cbn in E. injection E as <- <-. eapply sz_read; [exact HC|exact J| |exact E1|congruence]. unfold BUF_LIM; lia.
Qed.

Lemma bs_sim4 : sim (bs_ops src) content fails BUF_LIM bs_R4.
Proof.
  pose proof (bs_sim src content fails SR SE Hsrc) as HS. split.
  - intros x v [H _]; eapply sim_view; eassumption.
  - intros x v [H _]; eapply sim_pos; eassumption.
  - intros x v c [H J] Hc. destruct (sim_step _ _ _ _ _ HS x v c H Hc) as (x' & ob & E & [[G HR]|B]).
    2:{ exists x', ob; split; [exact E|right; exact B]. }
    exists x', ob; split; [exact E|left]. split; [exact G|]. split; [exact HR|].
    destruct H as (_ & HC & _ & _).
    assert (bs_st x' <> Error) as Hne by (destruct HR as (_ & (_ & _ & Q & _) & _); exact Q).
    destruct c as [mn mx|n|p]; cbn [exec bs_ops o_read o_skip o_reset call_ok] in *.
    + destruct (bs_read src x mn mx) as [[[x1 m] d]| | |] eqn:Er; cbn [bind] in E; try discriminate.
      injection E as <- <-. eapply sz_read; try eassumption; lia.
    + destruct (bs_skip src x n) as [[x1 m]| | |] eqn:Er; cbn [bind] in E; try discriminate.
      injection E as <- <-. unfold bs_skip in Er. eapply sz_skip; eassumption.
    + destruct (bs_reset x p) as [[x1 m]| | |] eqn:Er; cbn [bind] in E; try discriminate.
      injection E as <- <-. unfold bs_reset in Er. destruct (p <? 0); [discriminate|].
      destruct J as [J1 J2]. destruct (bs_st x) eqn:Est.
      3:{ injection Er as <- <-. congruence. }
      all: destruct (_ && _); injection Er as <- <-; unfold sz_inv; cbn; rewrite ?Est; (split; [exact J1|]); auto; congruence.
Qed.
End P.
