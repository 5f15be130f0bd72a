(** C20 data event streams and C36 signature streams.  Specification: DataEventSpec.v *)
From Verif Require Import Base StreamSpec P_Stream M_StringStream P_StringStream P_Streams3 M_Sub M_DataEvent DataEventSpec P_DataEvent.

Section H.
Context {P A : Type}.
Variables (par : ops P A) (content : list A) (fails : Prop) (lim : Z).
Definition hon_R (p : P) (v : view) : Prop := Conforms par content fails lim p v /\ honest par content lim p.
Lemma hon_sim : sim par content fails lim hon_R.
Proof.
  pose proof (conforms_sim par content fails lim) as HS. split.
  - intros p v (H & _). eapply sim_view; eassumption.
  - intros p v (H & _). eapply sim_pos; eassumption.
  - intros p v c (H & Hh) Hc. destruct (sim_step _ _ _ _ _ HS p v c H Hc) as (p' & ob & E & [[G HR]|B]); exists p', ob; (split; [exact E|]); [left|right; exact B].
    split; [exact G|]. split; [exact HR|]. intros l p2 obs Hl Er Hob. assert (ob_st ob <> Error) as Hne by apply G.
    apply (Hh (c :: l) p2 (ob :: obs)); [constructor; assumption| |constructor; assumption].
    cbn [run]. rewrite E; cbn [bind]. rewrite (is_error_false _ Hne), Er. reflexivity.
Qed.
End H.

(** Over every honest input that keeps the stream contract, and for every handler ([want] gives
    its answers), every history of documented calls runs without undefined behaviour, failed
    assertion or endless loop and is acceptable; the handler saw what it must see, and
    it was told the end once a read met it. *)
Theorem C20_data_events : forall (P A : Type) (par : ops P A) (want : list (list A) -> bool) (content : list A) (fails : Prop) lim p l,
  Conforms par content fails lim p view0 -> honest par content lim p -> 1 <= lim -> zlen content <= INT32_MAX ->
  Forall (call_ok content lim) l ->
  exists s s' obs, de_new par p = Ret s /\ run (de_ops par want) s l = Ret (s', obs) /\
    accepts_fwd content fails view0 l obs /\
    (Forall (fun ob => ob_st ob <> Error) obs -> handler_saw content want (furthest obs) (de_log s') /\
       (short_read l obs = true -> In End (de_log s'))) /\
    (exists far, 0 <= far <= zlen content /\ handler_saw content want far (de_log s')).
Proof.
  intros P A par want content fails lim p l HC Hh Hl Hlen Hcalls.
  set (R0 := hon_R par content fails lim). set (R := shr content R0).
  pose proof (hon_sim par content fails lim) as HS0. fold R0 in HS0. pose proof (sim_shr par content fails lim R0 HS0) as HS. fold R in HS.
  assert (R0 p view0) as HR0 by (split; assumption).
  assert (forall p v, R p v -> R p (mkView (v_pos v) (v_pos v) (v_pos v))) as Hpt by (intros; apply shr_point; assumption).
  assert (forall p v, R p v -> o_size par p = -1 \/ o_size par p = zlen content) as Hsz.
  { intros q v (_ & v0 & (_ & Hq) & _). exact (proj1 (Hq [] q [] (Forall_nil _) eq_refl (Forall_nil _))). }
  assert (forall p v q p' r, R p v -> 0 <= q <= v_pos v -> o_reset par p q = Ret (p', r) -> o_status par p' <> Error) as Hrs.
  { intros q v z q' r (_ & v0 & (Hq0 & Hq) & Ev & _) Hz E. apply (proj2 (Hq [] q [] (Forall_nil _) eq_refl (Forall_nil _)) z q' r); [|exact E].
    destruct Hq0 as (_ & -> & _). lia. }
  assert (o_pos par p = 0) as Hp0 by (destruct HC as (_ & -> & _); reflexivity).
  unfold de_new. rewrite Hp0. cbn [Z.eqb]. eexists.
  assert (inv want content R (mkDe p 0 false 0 (o_size par p) Ok []) view0 0) as HI.
  { pose proof (zlen_nonneg content). unfold inv. cbn [de_in de_pos de_st de_size view0 v_pos v_lo v_hi]. split; [unfold view_ok; cbn; lia|].
    split; [apply shr_intro with (o := par) (fails := fails) (lim := lim); assumption|]. split; [reflexivity|]. split; [discriminate|]. split; [discriminate|].
    split; [apply (Hsz p view0); apply shr_intro with (o := par) (fails := fails) (lim := lim); assumption|]. split; [lia|].
    exists []. cbn [de_log de_fin de_total]. split; [reflexivity|]. split; [constructor|]. split; [cbn; lia|]. split; [discriminate|].
    left. split; [reflexivity|]. split; [reflexivity|congruence]. }
  destruct (de_run_ok par want content fails lim R HS Hpt Hsz Hrs Hl Hlen l _ _ _ HI Hcalls) as (s' & obs & E & Hacc & Hres).
  exists s', obs. split; [reflexivity|]. split; [exact E|]. split; [exact Hacc|].
  assert (forall far, lg want content s' far -> handler_saw content want far (de_log s')) as Hlg.
  { intros far (ds & H1 & H2 & H3 & H4 & H5). exists ds, (de_fin s'). split; [exact H1|]. split; [exact H2|]. split; [exact H3|]. split; [exact H4|].
    destruct H5 as [(_ & Q)|(_ & Q)]; [left; exact Q|right; exact Q]. }
  split.
  - intros Hok. destruct Hres as [(_ & Hbad)|(_ & v' & Hi & Hsh)]; [contradiction|].
    destruct Hi as (_ & _ & _ & _ & _ & _ & _ & HL). split; [apply Hlg; exact HL|].
    intros Hs. destruct HL as (ds & H1 & _). rewrite H1. rewrite (Hsh (or_intror Hs)). apply in_or_app. right. left. reflexivity.
  - destruct Hres as [((far & Hf & HL) & _)|(_ & v' & Hi & _)].
    + exists far. split; [exact Hf|]. apply Hlg; exact HL.
    + destruct Hi as (Hv & _ & _ & _ & _ & _ & Hf & HL). eexists. split; [|apply Hlg; exact HL]. unfold view_ok in Hv. lia.
Qed.

(** non-trivial inputs that meet the hypotheses: every StringStream *)
Theorem C20_over_string_stream : forall (A : Type) (content : list A), zlen content <= INT32_MAX ->
  Conforms ss_ops content False INT32_MAX (mkSS content (zlen content) 0 Ok) view0 /\
  honest ss_ops content INT32_MAX (mkSS content (zlen content) 0 Ok).
Proof.
  intros A content Hlen. pose proof (ss_sim content Hlen) as HS.
  assert (ss_R content (mkSS content (zlen content) 0 Ok) view0) as HR.
  { pose proof (zlen_nonneg content). unfold ss_R, view_ok. cbn. repeat split; try lia; try congruence. }
  split; [exact (sim_conforms _ _ _ _ _ _ _ HS HR)|].
  intros l s obs Hl E Hob.
  assert (exists v, ss_R content s v) as (v & Hv).
  { assert (o_status ss_ops s <> Error) as Hst.
    { clear - E Hob HR Hl Hlen. revert HR E Hob. generalize (mkSS content (zlen content) 0 Ok) as t, view0 as v. revert obs. 
      induction Hl as [|c l Hc Hl IH]; intros obs t v HR E Hob.
      - cbn in E. injection E as <- <-. apply HR.
      - cbn [run] in E. destruct (ss_exec content Hlen t v c HR Hc) as (t1 & ob & E1 & HR1 & G & _). rewrite E1 in E; cbn [bind] in E.
        rewrite (is_error_false _ (proj1 G)) in E. destruct (run ss_ops t1 l) as [[t2 obs2]| | |] eqn:E2; cbn [bind] in E; try discriminate.
        injection E as <- <-. inversion Hob; subst. exact (IH _ _ _ HR1 E2 ltac:(assumption)). }
    exact (sim_run _ _ _ _ _ _ _ _ _ _ HS HR Hl E Hst). }
  destruct Hv as (Hd & Hs & Hp & Hv & He & Hf). split; [right; exact Hs|].
  intros q s2 r Hq E2. cbn [ss_ops o_reset] in E2. unfold ss_reset in E2. injection E2 as <- <-. cbn [o_status ss_ops].
  destruct (q <? 0); [discriminate|]. destruct (q <? ss_size s); discriminate.
Qed.
Definition always {A} : list (list A) -> bool := fun _ => true.
Definition once {A} (l : list (list A)) : bool := Nat.ltb (length l) 1.
Definition dss (l : list Z) : des (sstream Z) Z := mkDe (mkSS l (zlen l) 0 Ok) 0 false 0 (zlen l) Ok [].
(** read, go back, read again, skip to the end, read: every byte reported once *)
Example C20_case : exists s' obs,
  run (de_ops ss_ops always) (dss [1;2;3;4;5;6]) [Read 1 2; Reset 0; Read 3 3; Reset 4; Skip 9; Read 1 0; Reset 0; Read 9 9] = Ret (s', obs) /\
  de_log s' = [Data [1;2]; Data [3]; Data [4]; Data [5;6]; End] /\ map ob_ret obs = [2; 0; 3; 4; 2; -1; 0; 6].
Proof. do 2 eexists; split; [vm_compute; reflexivity|]. split; vm_compute; reflexivity. Qed.
(** the documentation promises that handleEnd is called: after a refusal it is not when the
    stream is drained with skip *)
Theorem C20_no_end_after_refusal_refuted : exists s' obs,
  run (de_ops ss_ops once) (dss [1;2;3;4;5;6]) [Read 1 2; Skip 9; Skip 1] = Ret (s', obs) /\
  de_log s' = [Data [1;2]] /\ map ob_st obs = [Ok; Eof; Eof].
Proof. do 2 eexists; split; [vm_compute; reflexivity|]. split; vm_compute; reflexivity. Qed.

(** * C36 *)
Theorem C36_transparent : forall (P A : Type) (par : ops P A) (p : P) (l : list call),
  match run par p l, run (sig_ops par) (sig_new par p) l with
  | Ret (_, obs), Ret (_, obs') => obs' = obs
  | UB, UB | Abort, Abort | Hang, Hang => True
  | _, _ => False
  end.
Proof. intros P A par p l. rewrite sig_run. cbn [sig_new sg_in]. destruct (run par p l) as [[p' obs]| | |]; trivial. Qed.
(** so it is a stream that keeps the contract whenever its input does *)
Theorem C36_contract : forall (P A : Type) (par : ops P A) (content : list A) (fails : Prop) lim (p : P),
  Conforms par content fails lim p view0 -> Conforms (sig_ops par) content fails lim (sig_new par p) view0.
Proof.
  intros P A par content fails lim p (Hv & Hp & H). split; [exact Hv|]. split; [reflexivity|]. intros l Hl.
  destruct (H l Hl) as (p' & obs & E & Hacc). rewrite sig_run. cbn [sig_new sg_in]. rewrite E. do 2 eexists; split; [reflexivity|exact Hacc].
Qed.
Example C36_case : exists s' obs, run (sig_ops ss_ops) (sig_new ss_ops (mkSS [1;2;3] 3 0 Ok)) [Read 2 2; Reset 1; Skip 1; Read 1 0] = Ret (s', obs) /\
  map ob_data obs = [[1;2]; []; []; [3]].
Proof. do 2 eexists; split; [vm_compute; reflexivity|]. vm_compute; reflexivity. Qed.
