(** C39: streams that skip without reading (SkippingBufferedStream, SkippingFileInputStream2). *)
From Verif Require Import Base StreamSpec P_Stream M_Buffered BufferedSpec P_Buffered M_File P_File M_Skipping SkippingSpec P_Skipping.

(** For every source that fills the buffer as documented: in every history of read, skip and resets to
    items of the last read, read returns the items at position(), and the rest of the contract holds. *)
Theorem C39_skipping_partial : forall (S A : Type) (src : source S A) (content : list A) (fails : Prop)
    (SR : S -> Z -> Prop) (SE : S -> Prop) (s : S) (l : list call),
  SrcOK src content fails SR SE -> SR s 0 ->
  behaves (skipping_rule fails) (sk_ops src None) content fails BUF_LIM (bs_new s) view0 l.
Proof.
  intros S A src content fails SR SE s l Hsrc Hs. eapply sk_behaves; [exact Hsrc| |].
  - intros v [mn mx|n|p] H; exact H || exact I.
  - apply sk_init. unfold bs_init_ok, bs_new; cbn [bs_buf bs_fin bs_src bs_pos bs_st bs_size buf0 b_off b_avail].
    repeat split; try assumption; [|tauto]. change (b_size (@buf0 A)) with 0. unfold BUF_LIM; lia.
Qed.
(** The file stream built on it (it seeks in the file): the same, for skips that stay in the file, whatever
    I/O errors occur. *)
Theorem C39_skipping_file_partial : forall bytes fault seek bs l,
  seek = zlen bytes \/ seek = 0 \/ seek = -1 -> 1 <= bs < BUF_LIM ->
  exists x, file_open bytes seek bs = Ret x /\
    behaves (skipping_inside_rule bytes) (file2_ops bytes fault) bytes (exists p n, fault p n = true) BUF_LIM x view0 l.
Proof.
  intros bytes fault seek bs l Hs Hb. destruct (file_open_ok bytes seek bs Hs Hb) as (x & E & HI). exists x. split; [exact E|].
  unfold file2_ops. eapply (sk_behaves _ _ _ (file_SR bytes) (fun _ => True) (file_SrcOK bytes fault)); [|apply sk_init, HI].
  intros v [mn mx|n|p] H; [exact I| |exact H]. split; [|exact H].
  intros st [op q] c k Hst (H1 & H2) Hk Hin. cbn [f_open f_pos] in *. unfold file2_advance. destruct op; [|lia]. cbn [f_open negb f_pos].
  exists (mkF true (q + k)). split; [destruct st; congruence|]. unfold file_SR. cbn [f_open f_pos]. lia.
Qed.


(** A source that hands over at most four items of the data at a time and may report an error at the end. *)
Definition chunks (data : list Z) (bad : bool) : source Z Z :=
  mkSource _ _ (fun c space => let d := slice data c (Z.min 4 space) in
                               if zlen d =? 0 then Ret (c, -1, [], bad) else Ret (c + zlen d, zlen d, d, false)) (fun _ => 1%nat).
Lemma chunks_ok data bad : SrcOK (chunks data bad) data (bad = true) (fun c k => c = k /\ 0 <= k <= zlen data) (fun _ => True).
Proof.
  intros s c space (-> & Hc) Hs. unfold chunks; cbn [fill mu].
  pose proof (zlen_slice_min data c (Z.min 4 space) ltac:(lia) ltac:(lia)) as ZM.
  destruct (Z.eqb_spec (zlen (slice data c (Z.min 4 space))) 0) as [E0|E0].
  - do 4 eexists. split; [reflexivity|]. split; [change (zlen (@nil Z)) with 0; lia|]. destruct bad.
    + right; right; right. split; [reflexivity|]. split; [reflexivity|]. left; lia.
    + right; right; left. split; [reflexivity|]. split; [lia|]. split; [lia|exact I].
  - do 4 eexists. split; [reflexivity|]. split; [lia|]. left. split; [reflexivity|]. split; [lia|].
    split; [|split; [lia|split; [lia|lia]]]. rewrite ZM at 1. apply zget_ext. intros i. rewrite !zget_slice by lia.
    destruct (Z.leb_spec 0 i); cbn [andb]; [|reflexivity]. destruct (Z.ltb_spec i (Z.min 4 space)), (Z.ltb_spec i (Z.min (Z.min 4 space) (zlen data - c))); try reflexivity; try lia.
    apply zget_none_big. lia.
Qed.
(** Missing, because the code does something else:
    a reset to a position that is still in the buffer after a skip returns other data *)
Definition eg6 : list Z := [10;11;12;13;14;15].
Definition eg_new : bstream Z Z := mkBS (mkBuf (repeat None 8) 0 0) false 0 (-1) 0 Ok.
Theorem C39_reset_after_skip_refuted : exists x,
  run (sk_ops (chunks eg6 false) None) eg_new [Read 1 0; Reset 1; Skip 3; Reset 3; Read 1 1]
  = Ret (x, [mkObs 4 [10;11;12;13] 4 (-1) Ok; mkObs 1 [] 1 (-1) Ok; mkObs 3 [] 4 (-1) Ok; mkObs 3 [] 3 (-1) Ok; mkObs 1 [10] 4 (-1) Ok]).
Proof. eexists (mkBS _ _ _ _ _ _). vm_compute. reflexivity. Qed.
(** reset to the end of the segment of the last read is ignored *)
Theorem C39_reset_to_end_refuted : exists x,
  run (sk_ops (chunks eg6 false) None) eg_new [Read 1 0; Reset 1; Reset 4]
  = Ret (x, [mkObs 4 [10;11;12;13] 4 (-1) Ok; mkObs 1 [] 1 (-1) Ok; mkObs 1 [] 1 (-1) Ok]).
Proof. eexists (mkBS _ _ _ _ _ _). vm_compute. reflexivity. Qed.
(** an error while skipping is reported as the end *)
Theorem C39_error_as_end_refuted : exists x,
  run (sk_ops (chunks eg6 true) None) eg_new [Read 1 1; Skip 8]
  = Ret (x, [mkObs 1 [10] 1 (-1) Ok; mkObs 5 [] 6 6 Eof]).
Proof. eexists (mkBS _ _ _ _ _ _). vm_compute. reflexivity. Qed.
(** the file stream skips beyond the end of the file *)
Theorem C39_file_beyond_end_refuted : exists x x',
  file_open [1;2;3] 3 2 = Ret x /\ run (file2_ops [1;2;3] (fun _ _ => false)) x [Skip 100] = Ret (x', [mkObs 100 [] 100 3 Ok]).
Proof. eexists _, (mkBS _ _ _ _ _ _). split; vm_compute; reflexivity. Qed.
(** A history within the rule that skips over the buffer. *)
Theorem C39_case : 
  SrcOK (chunks eg6 false) eg6 (false = true) (fun c k => c = k /\ 0 <= k <= zlen eg6) (fun _ => True) /\
  exists x, run (sk_ops (chunks eg6 false) None) eg_new [Read 1 0; Reset 2; Skip 2; Read 1 1; Reset 4; Read 2 2; Read 1 1]
  = Ret (x, [mkObs 4 [10;11;12;13] 4 (-1) Ok; mkObs 2 [] 2 (-1) Ok; mkObs 2 [] 4 (-1) Ok; mkObs 1 [14] 5 (-1) Ok; mkObs 4 [] 4 (-1) Ok;
             mkObs 2 [14;15] 6 (-1) Ok; mkObs (-1) [] 6 6 Eof]).
Proof. split; [apply chunks_ok|]. eexists (mkBS _ _ _ _ _ _). vm_compute. reflexivity. Qed.
