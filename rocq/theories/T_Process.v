(** C38: ProcessInputStream.  What the child gets of the input, and what comes out of the stream. *)
From Verif Require Import Base StreamSpec P_Stream M_StringStream P_StringStream M_Buffered BufferedSpec P_Buffered P_Inflate M_File P_File M_Process ProcessSpec P_Process.

(** For every child, every behaviour of the pipes, every input (also one that fails) and every sequence of
    fillBuffer calls: the child never gets a byte twice, out of order, or one that is
    not in the input.  (It may miss bytes: see below.) *)
Theorem C38_nothing_invented_partial : forall (P : Type) (par : ops P Z) ch pp full fails lim p v l s,
  Conforms par full fails lim p v -> 1 <= lim ->
  proc_fills par ch pp (mkProc (Some p) true true [] 0) l = Ret s ->
  subseq (pr_fed s) (skipn (Z.to_nat (v_pos v)) full).
Proof.
  intros P par ch pp full fails lim p v l s HC Hlim E.
  assert (HV : view_ok full v) by apply HC. unfold view_ok in HV.
  assert (fed_inv par full fails lim (v_pos v) (mkProc (Some p) true true [] 0)) as H0.
  { exists (v_pos v). cbn [pr_in pr_fed]. split; [lia|]. split; [apply ss_nil|]. intros _. exists v. auto. }
  revert E H0. generalize (mkProc (Some p) true true [] 0). induction l as [|sp l IH]; intros s0 E H0; cbn [proc_fills] in E.
  - injection E as <-. destruct H0 as (c & Hc & Hs & _).
    assert (skipn (Z.to_nat (v_pos v)) full = slice full (v_pos v) (c - v_pos v) ++ skipn (Z.to_nat c) full) as ->.
    { rewrite (skipn_slice full (v_pos v) (c - v_pos v)) by lia. do 2 f_equal. lia. }
    rewrite <- (app_nil_r (pr_fed s0)). apply subseq_app; [exact Hs|apply ss_nil].
  - destruct (proc_fill par ch pp s0 sp) as [[[[s1 n] d] e]| | |] eqn:E1; cbn [bind] in E; try discriminate.
    apply (IH s1 E). eapply fed_fill; try eassumption. lia.
Qed.

(** With an input that reports its end in a read of its own, a child that writes something for everything it
    gets, and blocking pipes: the stream keeps the stream contract with the output of the
    child for the complete input as content (for all sizes of the reads on the pipe and every
    history of calls), and when it reports Eof the child has got exactly the input, and
    its standard input is closed. *)
Theorem C38_filter_partial : forall (P : Type) (par : ops P Z) ch pp full LI p,
  EndsSeparately par full LI -> Answers ch -> Blocking pp -> LI p 0 ->
  Conforms (bs_ops (proc_src par ch pp)) (ch_out ch full true) False BUF_LIM (proc_new p) view0 /\
  forall l x obs, Forall (call_ok (ch_out ch full true) BUF_LIM) l -> run (bs_ops (proc_src par ch pp)) (proc_new p) l = Ret (x, obs) ->
    bs_st x = Eof -> pr_fed (bs_src x) = full /\ pr_fdin (bs_src x) = false.
Proof.
  intros P par ch pp full LI p HL HA HB HI.
  assert (HS := proc_SrcOK par ch pp full LI HL HA HB).
  assert (bs_init_ok (ch_out ch full true) False (proc_SR ch full LI) (proc_new p)) as H0.
  { unfold bs_init_ok, proc_new, bs_new, b_size. cbn [bs_buf bs_fin bs_src bs_pos bs_st bs_size buf0 b_off b_avail b_mem]. change (zlen (@nil (option Z))) with 0. unfold BUF_LIM.
    split; [reflexivity|]. split; [reflexivity|]. split; [lia|]. split; [reflexivity|]. split; [|split; [reflexivity|split; [reflexivity|right; left; reflexivity]]].
    split; [pose proof (zlen_nonneg (ch_out ch full true)); lia|]. cbn [pr_fdout pr_got pr_in pr_fdin pr_fed]. split; [reflexivity|]. exists 0. split; [exact HI|]. split; [reflexivity|]. split; [reflexivity|apply zlen_nonneg]. }
  split; [exact (bs_conforms _ _ _ _ _ HS _ H0)|].
  intros l x obs Hl Hr He.
  destruct (eof_end _ _ _ _ _ HS (proc_new p) l x obs (bs_init_R _ _ _ _ _ H0)) as (E1 & E2); try assumption; [|auto].
  unfold fin_inv, proc_new, bs_new. cbn. discriminate.
Qed.
(** Every buffered stream is such an input as long as it does not fail; for example a file. *)
Theorem C38_buffered_input : forall (S : Type) (src : source S Z) content SR SE x,
  SrcOK src content False SR SE -> bs_init_ok content False SR x ->
  EndsSeparately (bs_ops src) content (lazy_I content SR SE) /\ lazy_I content SR SE x 0.
Proof. intros S src content SR SE x HS HI. split; [apply bs_lazy; exact HS|apply lazy_init; exact HI]. Qed.

(** ** children *)
(** cat; a child that doubles each byte and writes a final 0; sort -u of nothing but the end *)
Definition cat : child := mkChild (fun i _ => i) (fun _ => false).
Definition dup : child := mkChild (fun i c => flat_map (fun b => [b; b]) i ++ (if c : bool then [0] else [])) (fun _ => false).
(** a child that needs all of its input before it writes anything, like sort *)
Definition tac : child := mkChild (fun i c => if c : bool then rev i else []) (fun _ => false).
Definition whole : pipes := mkPipes (fun _ n => n) (fun _ _ => 2).
Lemma dup_answers : Answers dup.
Proof.
  split; [|split; [|reflexivity]].
  - intros a b. exists (flat_map (fun b => [b; b]) b). cbn [ch_out dup]. rewrite !app_nil_r, flat_map_app. split; [reflexivity|]. destruct b; [congruence|discriminate].
  - intros a. exists [0]. cbn [ch_out dup]. rewrite app_nil_r. reflexivity.
Qed.
Definition nofault (_ _ : Z) : bool := false.
Lemma file_src_ok bytes : SrcOK (file_src bytes nofault) bytes False (file_SR bytes) (fun _ => True).
Proof.
  intros s c sp H1 H2. destruct (file_SrcOK bytes nofault s c sp H1 H2) as (s' & n & d & err & E1 & E2 & [H|[H|[H|(_ & H & _)]]]);
    exists s', n, d, err; (split; [exact E1|]); (split; [exact E2|]); try tauto. destruct H as (p & k & H). discriminate.
Qed.
(** a file of 7 bytes read 3 bytes at a time, through the child that doubles *)
Example C38_case : exists f x, file_open [1;2;3;4;5;6;7] 7 3 = Ret f /\
  EndsSeparately (bs_ops (file_src [1;2;3;4;5;6;7] nofault)) [1;2;3;4;5;6;7] (lazy_I [1;2;3;4;5;6;7] (file_SR [1;2;3;4;5;6;7]) (fun _ => True)) /\
  lazy_I [1;2;3;4;5;6;7] (file_SR [1;2;3;4;5;6;7]) (fun _ => True) f 0 /\ Answers dup /\ Blocking whole /\
  run (bs_ops (proc_src (bs_ops (file_src [1;2;3;4;5;6;7] nofault)) dup whole)) (proc_new f) [Read 1 1; Read 20 0]
    = Ret (x, [mkObs 1 [1] 1 (-1) Ok; mkObs 14 [1;2;2;3;3;4;4;5;5;6;6;7;7;0] 15 15 Eof]).
Proof.
  destruct (file_open_ok [1;2;3;4;5;6;7] 7 3) as (f & E & HI); [left; reflexivity|unfold BUF_LIM; lia|].
  assert (exists f', file_open [1;2;3;4;5;6;7] 7 3 = Ret f' /\ exists x, run (bs_ops (proc_src (bs_ops (file_src [1;2;3;4;5;6;7] nofault)) dup whole)) (proc_new f') [Read 1 1; Read 20 0]
    = Ret (x, [mkObs 1 [1] 1 (-1) Ok; mkObs 14 [1;2;2;3;3;4;4;5;5;6;6;7;7;0] 15 15 Eof])) as (f' & E' & x & Ex).
  { eexists. split; [vm_compute; reflexivity|]. eexists (mkBS _ _ _ _ _ _). vm_compute. reflexivity. }
  rewrite E in E'. injection E' as <-. exists f, x. split; [exact E|].
  destruct (C38_buffered_input _ (file_src [1;2;3;4;5;6;7] nofault) _ _ (fun _ => True) f (file_src_ok _) (HI False)) as (H1 & H2).
  split; [exact H1|]. split; [exact H2|]. split; [exact dup_answers|]. split; [intros k n; reflexivity|exact Ex].
Qed.

(** ** The claim is false of the code in three ways. *)
(** 1. An input that reports Eof together with the last bytes, as StringStream does: these bytes are
    not written.  cat on "abc" gives nothing. *)
Theorem C38_last_chunk_refuted : exists x,
  run (bs_ops (proc_src ss_ops cat whole)) (proc_new (mkSS [97;98;99] 3 0 Ok)) [Read 1 0] = Ret (x, [mkObs (-1) [] 0 0 Eof]) /\ pr_fed (bs_src x) = [].
Proof. eexists (mkBS _ _ _ _ _ _). vm_compute. split; reflexivity. Qed.
(** 2. write() accepts only a part (4 of 5 bytes): the rest is never written. *)
Theorem C38_short_write_refuted : exists f x, file_open [1;2;3;4;5] 5 8 = Ret f /\
  run (bs_ops (proc_src (bs_ops (file_src [1;2;3;4;5] nofault)) cat (mkPipes (fun _ _ => 4) (fun _ n => n)))) (proc_new f) [Read 9 0]
    = Ret (x, [mkObs 4 [1;2;3;4] 4 4 Eof]) /\ pr_fdin (bs_src x) = false.
Proof. eexists. eexists (mkBS _ _ _ _ _ _). split; [vm_compute; reflexivity|]. split; [vm_compute; reflexivity|vm_compute; reflexivity]. Qed.
(** 3. A child that needs its whole input before it writes: after one write the stream waits for output
    and never closes the input of the child. *)
Theorem C38_waits_for_ever_refuted : exists f, file_open [1;2;3] 3 8 = Ret f /\
  run (bs_ops (proc_src (bs_ops (file_src [1;2;3] nofault)) tac whole)) (proc_new f) [Read 1 0] = Hang.
Proof. eexists. split; [vm_compute; reflexivity|vm_compute; reflexivity]. Qed.
