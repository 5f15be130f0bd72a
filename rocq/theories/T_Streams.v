(** Theorems C01-C10 and C21.  Vocabulary: StreamSpec.v (the documented stream
    contract [Conforms]), BufferedSpec.v ([SrcOK], a fillBuffer that hands out
    successive pieces of a content), the models M_*.v. *)
From Verif Require Import Base StreamSpec P_Stream M_StringStream P_StringStream
  M_Buffered BufferedSpec P_Buffered P_Buffered2 M_Sub P_Sub P_Sub2 P_DefaultSkip
  M_File P_File P_Streams3.

(** * C01 StringStream *)
Theorem C01_string_stream_contract : forall (A : Type) (is0 : A -> bool) (value : list A) (len : Z),
  0 <= len <= zlen value -> len <= INT32_MAX ->
  exists s, ss_new is0 value len = Ret s /\
    Conforms ss_ops (slice value 0 len) False INT32_MAX s view0 /\
    forall l, Forall (call_ok (slice value 0 len) INT32_MAX) l ->
      exists s' obs, run ss_ops s l = Ret (s', obs) /\
        accepts (slice value 0 len) False view0 l obs /\
        Forall2 (fun c ob => ob_size ob = len /\ ob_st ob <> Error /\
                             (0 < len -> (ob_st ob = Eof <-> ob_pos ob = len)) /\
                             forall p, c = Reset p -> ob_ret ob = p) l obs.
Proof.
  intros A is0 value len H1 H2. unfold ss_new. destruct (Z.ltb_spec len 0); [lia|]. unfold ss_new_len.
  destruct (Z.leb_spec 0 len), (Z.leb_spec len (zlen value)); try lia. cbn [andb].
  eexists; split; [reflexivity|].
  pose proof (zlen_slice value 0 len ltac:(lia) ltac:(lia) ltac:(lia)) as E.
  rewrite <- E at 1. rewrite <- E in H2. split.
  - rewrite E. rewrite <- E at 3. apply ss_conforms. exact H2.
  - intros l Hl.
    destruct (ss_total (slice value 0 len) H2 l (mkSS (slice value 0 len) len 0 Ok) view0) as (s' & obs & E1 & A1 & F1).
    + unfold ss_R, view_ok. cbn. rewrite E. repeat split; try congruence; try lia.
    + cbn. intros Q. rewrite E in Q |- *. split; [discriminate|intros; lia].
    + exact Hl.
    + exists s', obs. rewrite <- E at 1. split; [rewrite E; exact E1|]. split; [exact A1|]. rewrite E in F1. exact F1.
Qed.
Example C01_case : exists s, ss_new (Z.eqb 0) [104;101;108;108;111] 5 = Ret s /\
  run ss_ops s [Read 2 3; Reset 1; Skip 2; Read 1 0; Read 1 1] =
  Ret (mkSS [104;101;108;108;111] 5 5 Eof,
       [mkObs 3 [104;101;108] 3 5 Ok; mkObs 1 [] 1 5 Ok; mkObs 2 [] 3 5 Ok;
        mkObs 2 [108;111] 5 5 Eof; mkObs (-1) [] 5 5 Eof]).
Proof. eexists; split; [vm_compute; reflexivity|]; vm_compute; reflexivity. Qed.
(** with a negative length the content is the string in front of the first 0 *)
Theorem C01_zero_terminated : forall (A : Type) (is0 : A -> bool) (pre : list A) (z : A) (rest : list A) (len : Z),
  len < 0 -> Forall (fun x => is0 x = false) pre -> is0 z = true -> zlen pre <= INT32_MAX ->
  exists s, ss_new is0 (pre ++ z :: rest) len = Ret s /\ Conforms ss_ops pre False INT32_MAX s view0.
Proof.
  intros A is0 pre z rest len Hl Hp Hz Hn. unfold ss_new. destruct (Z.ltb_spec len 0); [|lia].
  assert (strlen is0 (pre ++ z :: rest) = Ret (zlen pre)) as ->.
  { clear - Hp Hz. induction Hp as [|x l Hx Hl' IH]; cbn [app strlen]; [rewrite Hz; reflexivity|].
    rewrite Hx, IH. cbn [bind]. f_equal. unfold zlen. cbn [length]. lia. }
  cbn [bind]. assert (0 <= zlen pre) as H0 by (unfold zlen; lia). unfold chk32, i32. destruct (Z.leb_spec INT32_MIN (zlen pre)); [|unfold INT32_MIN in *; lia].
  destruct (Z.leb_spec (zlen pre) INT32_MAX); [|lia]. cbn [andb bind].
  destruct (C01_string_stream_contract A is0 (pre ++ z :: rest) (zlen pre)) as (s & E & HC & _); [rewrite zlen_app; assert (0 <= zlen (z :: rest)) by (unfold zlen; lia); lia|lia|].
  unfold ss_new in E. destruct (Z.ltb_spec (zlen pre) 0); [lia|]. exists s. split; [exact E|].
  rewrite slice_app_l in HC by lia. rewrite slice_all in HC. exact HC.
Qed.
Example C01_zero_terminated_case : exists s, ss_new (Z.eqb 0) [104;105;0;9] (-1) = Ret s /\
  run ss_ops s [Read 1 0; Read 1 0] = Ret (mkSS [104;105] 2 2 Eof, [mkObs 2 [104;105] 2 2 Eof; mkObs (-1) [] 2 2 Eof]).
Proof. eexists; split; [vm_compute; reflexivity|]; vm_compute; reflexivity. Qed.
(** reset to a negative position, in any state: a string or mapped file goes to its start *)
Theorem C01_reset_negative : forall (A : Type) (s : sstream A) p, p < 0 ->
  exists s', ss_reset s p = Ret (s', 0) /\ ss_pos s' = 0 /\ ss_st s' = Ok.
Proof. intros A s p H. unfold ss_reset. destruct (Z.ltb_spec p 0); [|lia]. eexists. split; [reflexivity|]. split; reflexivity. Qed.
(** the documentation reads 0 < max < min as "no limit"; the code then returns max < min items *)
Theorem C01_max_below_min_refuted : exists s, ss_new (Z.eqb 0) [1;2;3] 3 = Ret s /\
  exists s' d, ss_read s 2 1 = Ret (s', 1, d) /\ ss_st s' = Ok.
Proof. eexists; split; [reflexivity|]. do 2 eexists; split; [vm_compute; reflexivity|]; vm_compute; reflexivity. Qed.
(** skip narrows its 64 bit argument to 32 bits *)
Theorem C01_skip_64bit_refuted : exists s, ss_new (Z.eqb 0) [1;2;3] 3 = Ret s /\
  exists s', ss_skip s (2^32 + 1) = Ret (s', 1).
Proof. eexists; split; [reflexivity|]. eexists; vm_compute; reflexivity. Qed.

(** * C02 BufferedStream *)
Theorem C02_buffered_contract : forall (S A : Type) (src : source S A) (content : list A) (fails : Prop)
    (SR : S -> Z -> Prop) (SE : S -> Prop) (s : S),
  SrcOK src content fails SR SE -> SR s 0 ->
  Conforms (bs_ops src) content fails BUF_LIM (bs_new s) view0.
Proof.
  intros S A src content fails SR SE s Hsrc Hs. eapply bs_conforms; [exact Hsrc|].
  unfold bs_init_ok, bs_new; cbn [bs_buf bs_fin bs_src bs_pos bs_st bs_size buf0 b_off b_avail].
  repeat split; try assumption; [|tauto].
  change (b_size (@buf0 A)) with 0. unfold BUF_LIM; lia.
Qed.
(** the hypotheses are met by FileInputStream's fillBuffer for every file *)
Example C02_case : forall bytes, SrcOK (file_src bytes (fun _ _ => false)) bytes False (file_SR bytes) (fun _ => True) /\
  (0 <= zlen bytes -> file_SR bytes (mkF true 0) 0).
Proof.
  intros bytes; split.
  - intros s c sp H1 H2. destruct (file_SrcOK bytes (fun _ _ => false) s c sp H1 H2) as (s' & n & d & err & E1 & E2 & [H|[H|[H|(_ & H & _)]]]);
      exists s', n, d, err; (split; [exact E1|]); (split; [exact E2|]); try tauto.
    destruct H as (p & k & H). discriminate.
  - intros; unfold file_SR; cbn; lia.
Qed.

(** * C03 pointers stay valid across reset *)
Theorem C03_segment_survives_reset : forall (S A : Type) (src : source S A) (content : list A) (fails : Prop)
    (SR : S -> Z -> Prop) (SE : S -> Prop) (s : S) l x obs mn mx x' n d p,
  SrcOK src content fails SR SE -> SR s 0 ->
  Forall (call_ok content BUF_LIM) l -> run (bs_ops src) (bs_new s) l = Ret (x, obs) -> bs_st x <> Error ->
  1 <= mn <= BUF_LIM -> bs_read src x mn mx = Ret (x', n, d) -> 0 < n ->
  bs_pos x <= p <= bs_pos x + n ->
  exists x'', bs_reset x' p = Ret (x'', p) /\
    b_mem (bs_buf x'') = b_mem (bs_buf x') /\
    (* the cells behind the pointer handed out (readPos - n after the read) still hold the items *)
    slice (b_mem (bs_buf x'')) (b_off (bs_buf x') - n) n = map Some d /\
    (forall mn2 mx2, 1 <= mn2 <= BUF_LIM -> p < bs_pos x + n ->
       exists y k d2, bs_read src x'' mn2 mx2 = Ret (y, k, d2) /\
         (0 < k /\ (forall i, 0 <= i < Z.min k (bs_pos x + n - p) -> zget d2 i = zget d (p - bs_pos x + i))
          \/ k = -2 /\ bs_st y = Error /\ fails)).
Proof. intros S A src content fails SR SE s l x obs mn mx x' n d p H H0. eapply pointer_valid_run; eassumption. Qed.
Example C03_case : exists x, run (bs_ops (file_src [1;2;3;4;5;6;7] (fun _ _ => false))) (bs_new (mkF true 0)) [Read 2 2] = Ret (x, [mkObs 2 [1;2] 2 (-1) Ok]) /\
  exists x' , bs_read (file_src [1;2;3;4;5;6;7] (fun _ _ => false)) x 2 3 = Ret (x', 2, [3;4]).
Proof. eexists; split; [vm_compute; reflexivity|]. eexists; vm_compute; reflexivity. Qed.

(** * C04 status and size bookkeeping *)
Theorem C04_size_undeclared : forall (S A : Type) (src : source S A) (content : list A) (fails : Prop)
    (SR : S -> Z -> Prop) (SE : S -> Prop) (s : S) l x obs,
  SrcOK src content fails SR SE -> SR s 0 ->
  Forall (call_ok content BUF_LIM) l -> run (bs_ops src) (bs_new s) l = Ret (x, obs) -> bs_st x <> Error ->
  (bs_size x = -1 \/ (bs_size x = zlen content /\ Exists (fun ob => ob_st ob = Eof) obs)) /\
  (bs_st x = Eof -> bs_size x = zlen content /\ bs_pos x = zlen content).
Proof.
  intros S A src content fails SR SE s l x obs Hsrc Hs Hl Hrun Hst.
  assert (bs_R4 content fails SR SE (bs_new s) view0) as H0.
  { split.
    - apply bs_init_R. unfold bs_init_ok, bs_new; cbn [bs_buf bs_fin bs_src bs_pos bs_st bs_size buf0 b_off b_avail].
      repeat split; try assumption; [|tauto]. change (b_size (@buf0 A)) with 0. unfold BUF_LIM; lia.
    - unfold sz_inv, bs_new; cbn. split; [tauto|congruence]. }
  destruct (sim_run _ _ _ _ _ _ _ _ _ _ (bs_sim4 src content fails SR SE Hsrc) H0 Hl Hrun Hst) as (v & (_ & HC & _) & J1 & J2).
  destruct HC as (_ & Hp & _ & _ & _ & HE & _). split.
  - destruct J1 as [J1|J1]; [left; exact J1|].
    destruct (size_unknown_until_eof src l (bs_new s) _ _ ltac:(left; reflexivity) ltac:(discriminate) Hrun) as [Q|Q]; [left; exact Q|right; tauto].
  - intros E. rewrite Hp. auto.
Qed.
Theorem C04_error_is_final : forall (S A : Type) (src : source S A) (x : bstream S A),
  bs_st x = Error ->
  (forall mn mx, bs_read src x mn mx = Ret (x, -2, [])) /\
  (forall p, 0 <= p -> bs_reset x p = Ret (x, -2)) /\
  (forall n, bs_skip src x n = Ret (x, 0)).
Proof.
  intros S A src x E. split; [intros; apply bs_read_err_sticky; exact E|]. split.
  - intros p Hp. unfold bs_reset. destruct (Z.ltb_spec p 0); [lia|]. rewrite E; reflexivity.
  - intros n. unfold bs_skip. destruct (Z.eq_dec n 0) as [->|Hn0]; [reflexivity|].
    destruct (skip_rounds n) as [|k] eqn:Ek; [unfold skip_rounds in Ek; destruct (Z.ltb_spec n 0); lia|]. cbn [bs_skip_loop].
    destruct (Z.eqb_spec n 0); [lia|]. rewrite bs_read_err_sticky by exact E. reflexivity.
Qed.
(** a source that delivers more than the declared size: nothing past it is handed out *)
Theorem C04_declared_size : forall (S A : Type) (src : source S A) (content : list A) (ds : Z) (s : S) l x obs,
  0 < ds <= zlen content ->
  Forall (fun c => call_ok content BUF_LIM c /\ match c with Reset p => p <= ds | _ => True end) l ->
  run (bs_ops src) (mkBS buf0 false s ds 0 Ok) l = Ret (x, obs) ->
  bs_size x = ds /\ (bs_st x <> Error -> bs_pos x <= ds) /\
  Forall (fun ob => ob_st ob <> Error -> ob_pos ob <= ds) obs.
Proof.
  intros S A src content ds s l x obs Hds Hl E. eapply decl_run; try eassumption; [lia|lia|].
  unfold decl; cbn. lia.
Qed.
Example C04_case : exists x, run (bs_ops (file_src [1;2;3;4;5] (fun _ _ => false))) (mkBS buf0 false (mkF true 0) 3 0 Ok) [Read 2 2; Read 3 3; Read 1 1]
   = Ret (x, [mkObs 2 [1;2] 2 3 Ok; mkObs (-2) [] 5 3 Error]).
Proof. eexists; vm_compute; reflexivity. Qed.
(** with a declared size that is too large, size() and position() differ at the end *)
Theorem C04_declared_too_large_refuted : exists x,
  run (bs_ops (file_src [1;2;3] (fun _ _ => false))) (mkBS buf0 false (mkF true 0) 9 0 Ok) [Read 5 5]
   = Ret (x, [mkObs 3 [1;2;3] 3 9 Eof]).
Proof. eexists; vm_compute; reflexivity. Qed.

(** * C05 makeSpace *)
Theorem C05_makeSpace : forall (A : Type) (b : buf A) needed,
  0 <= b_off b -> 0 <= b_avail b -> b_off b + b_avail b <= b_size b -> b_size b <= INT32_MAX - 1 ->
  1 <= needed -> b_avail b + needed <= 2 ^ 30 ->
  exists b' space, makeSpace b needed = Ret (b', space) /\ needed <= space <= INT32_MAX /\
    0 <= b_off b' /\ b_avail b' = b_avail b /\ b_off b' + b_avail b' + space <= b_size b' /\
    slice (b_mem b') (b_off b') (b_avail b') = slice (b_mem b) (b_off b) (b_avail b) /\
    b_size b' <= INT32_MAX - 1.
Proof. exact @makeSpace_plain. Qed.
Example C05_case : exists b', makeSpace (mkBuf [Some 1; Some 2; Some 3; Some 4] 2 2) 3 = Ret (b', 6) /\
  b_off b' = 0 /\ b_avail b' = 2 /\ slice (b_mem b') 0 2 = [Some 3; Some 4].
Proof. eexists; split; [vm_compute; reflexivity|]. vm_compute. repeat split. Qed.
(** the bound is sharp: a buffer holding 2^30 unread items overflows on one more *)
Theorem C05_bound_sharp : forall (A : Type) (b : buf A), b_off b = 0 -> b_avail b = 2 ^ 30 -> b_size b = 2 ^ 30 ->
  makeSpace b 1 = UB.
Proof.
  intros A b H1 H2 H3. unfold makeSpace. rewrite H1, H2, H3.
  change (negb ((0 <=? 0) && (0 <=? 2 ^ 30) && (0 <=? 2 ^ 30) && (2 ^ 30 + 0 <=? 2 ^ 30))) with false.
  change (2 ^ 30 - 0 - 2 ^ 30) with 0. change (1 <=? 0) with false. change (2 ^ 30 =? 0) with false.
  change (0 =? 0) with true. cbv iota beta. change (1 <=? 0) with false. cbv iota.
  change (chk32 (1 - 0)) with (Ret 1). change (chk32 (0 + 2 ^ 30)) with (Ret (2 ^ 30)).
  change (chk32 (2 * 2 ^ 30)) with (@UB Z). reflexivity.
Qed.

(** * C06 SubInputStream *)
Theorem C06_substream_is_slice : forall (P A : Type) (par : ops P A) (content : list A) (fails : Prop) lim p v n,
  Conforms par content fails lim p v ->
  (n = -1 /\ 0 < zlen content - v_pos v <= INT32_MAX) \/ 0 <= n <= INT32_MAX ->
  exists s, sub_new par p n = Ret s /\
    Conforms (sub_ops par) (slice content (v_pos v) (if n =? -1 then zlen content - v_pos v else n))
      (fails \/ zlen content - v_pos v < n) lim s view0.
Proof. intros P A par content fails lim p v n. apply sub_conforms. Qed.
(** it never moves the parent outside [o, o+n] *)
Theorem C06_parent_position : forall (P A : Type) (par : ops P A) (content : list A) (fails : Prop) lim p v n s0 l s obs,
  Conforms par content fails lim p v ->
  (n = -1 /\ 0 < zlen content - v_pos v <= INT32_MAX) \/ 0 <= n <= INT32_MAX ->
  sub_new par p n = Ret s0 ->
  Forall (call_ok (slice content (v_pos v) (if n =? -1 then zlen content - v_pos v else n)) lim) l ->
  run (sub_ops par) s0 l = Ret (s, obs) -> su_st s <> Error ->
  o_pos par (su_par s) = v_pos v + su_pos s /\ 0 <= su_pos s /\ (n <> -1 -> su_pos s <= n) /\
  exists vp, Conforms par content fails lim (su_par s) vp.
Proof. intros P A par content fails lim p v n s0 l s obs. apply sub_parent. Qed.
Example C06_case : exists s, sub_new ss_ops (mkSS [1;2;3;4;5;6] 6 2 Ok) 3 = Ret s /\
  run (sub_ops ss_ops) s [Read 1 2; Reset 1; Read 5 0; Read 1 1] =
   Ret (mkSub (mkSS [1;2;3;4;5;6] 6 5 Ok) 2 3 3 Eof,
        [mkObs 2 [3;4] 2 3 Ok; mkObs 1 [] 1 3 Ok; mkObs 2 [4;5] 3 3 Eof; mkObs (-1) [] 3 3 Eof]).
Proof. eexists; split; [vm_compute; reflexivity|]; vm_compute; reflexivity. Qed.
(** unknown size: at Eof the size may still be unknown *)
Theorem C06_unknown_size_at_eof_refuted : exists s, sub_new ss_ops (mkSS [1;2] 2 0 Ok) (-1) = Ret s /\
  exists s', run (sub_ops ss_ops) s [Read 2 2; Read 1 1] = Ret (s', [mkObs 2 [1;2] 2 (-1) Ok; mkObs (-1) [] 2 (-1) Eof]).
Proof. eexists; split; [vm_compute; reflexivity|]. eexists; vm_compute; reflexivity. Qed.
(** unknown size, empty rest: skip makes the position negative *)
Theorem C06_unknown_size_empty_refuted : exists s, sub_new ss_ops (mkSS [1;2] 2 2 Eof) (-1) = Ret s /\
  exists s' k, sub_skip ss_ops s 1 = Ret (s', k) /\ su_pos s' = -1.
Proof. eexists; split; [vm_compute; reflexivity|]. do 2 eexists; split; [vm_compute; reflexivity|]; vm_compute; reflexivity. Qed.

(** also beyond 2 GiB: a substream of any size, created at any time on a BufferedStream or a mapped file *)
Theorem C06_buffered_any_size : forall (S A : Type) (src : source S A) (content : list A) (fails : Prop) (SR : S -> Z -> Prop) (SE : S -> Prop) (s : S) l0 x obs0 n,
  SrcOK src content fails SR SE -> SR s 0 ->
  Forall (call_ok content BUF_LIM) l0 -> run (bs_ops src) (bs_new s) l0 = Ret (x, obs0) -> bs_st x <> Error -> 0 <= n ->
  exists su, sub_new (bs_ops src) x n = Ret su /\
    Conforms (sub_ops (bs_ops src)) (slice content (bs_pos x) n) (fails \/ zlen content - bs_pos x < n) BUF_LIM su view0.
Proof.
  intros S A src content fails SR SE s l0 x obs0 n Hsrc Hs Hl Hrun Hst Hn. pose proof (bs_sim src content fails SR SE Hsrc) as HS.
  assert (bs_R content fails SR SE (bs_new (A := A) s) view0) as HR0.
  { apply bs_init_R. unfold bs_init_ok, bs_new; cbn [bs_buf bs_fin bs_src bs_pos bs_st bs_size buf0 b_off b_avail]. repeat split; try assumption; [|tauto]. change (b_size (@buf0 A)) with 0. unfold BUF_LIM; lia. }
  destruct (sim_run _ _ _ _ _ _ _ _ _ _ HS HR0 Hl Hrun Hst) as (v & HR).
  assert (bs_pos x = v_pos v) as -> by apply HR. apply (sub_any (bs_ops src) content fails BUF_LIM _ x v n HS HR Hn).
  - intros p w mn mx p' k d (Hw & Hc & _) H1 _ _ E. destruct (bs_read_core src content fails SR SE Hsrc p (v_pos w) mn mx Hc H1) as (x' & n' & d' & E' & Hres).
    cbn [bs_ops o_read] in E. assert (n' = k) as -> by congruence. unfold INT32_MAX.
    destruct Hres as [(_ & _ & ->)|[(_ & Hc' & _ & _ & _ & _ & Ho & _)|(-> & _)]]; [lia| |lia].
    destruct Hc' as ((B1 & B2 & B3 & B4 & _) & _). unfold BUF_LIM in B4. lia.
  - intros p w mn mx _ Hm. cbn [bs_ops o_read]. unfold bs_read. destruct (bs_st p); try reflexivity.
    destruct (Z.ltb_spec mx mn), (Z.ltb_spec 0 mn); try lia. reflexivity.
Qed.
Theorem C06_mapped_any_size : forall bytes l0 x obs0 n, 0 < zlen bytes ->
  Forall (call_ok bytes INT32_MAX) l0 -> run mm_ops (mm_new bytes) l0 = Ret (x, obs0) -> mm_st x <> Error -> 0 <= n ->
  exists su, sub_new mm_ops x n = Ret su /\
    Conforms (sub_ops mm_ops) (slice bytes (mm_pos x) n) (zlen bytes - mm_pos x < n) INT32_MAX su view0.
Proof.
  intros bytes l0 x obs0 n Hne Hl Hrun Hst Hn. pose proof (mm_sim bytes Hne) as HS.
  assert (mm_R bytes (mm_new bytes) view0) as HR0 by (unfold mm_R, view_ok; cbn; repeat split; try congruence; try lia).
  destruct (sim_run _ _ _ _ _ _ _ _ _ _ HS HR0 Hl Hrun Hst) as (v & HR).
  assert (mm_pos x = v_pos v) as -> by apply HR.
  destruct (sub_any mm_ops bytes False INT32_MAX _ x v n HS HR Hn) as (su & E & HC).
  - intros p w mn mx p' k d _ H1 H2 H3 E. cbn [mm_ops o_read] in E. unfold mm_read in E. unfold INT32_MAX in *.
    destruct (mm_st p); [|injection E as _ <- _; lia|injection E as _ <- _; lia].
    rewrite Z.max_l in E by lia. pose proof (wrap32_range' (mm_size p - mm_pos p)) as W. unfold INT32_MAX in W. destruct (mm_size p - mm_pos p <=? mn); destruct (_ && _); try discriminate; injection E as _ <- _; lia.
  - intros p w mn mx _ Hm. cbn [mm_ops o_read]. unfold mm_read. rewrite !Z.max_l by lia. reflexivity.
  - exists su. split; [exact E|]. eapply conforms_mono; [|reflexivity|exact HC]. tauto.
Qed.
(** such a substream exists: 3 GiB of a mapped file of 5 GiB, behind its first GiB *)
Example C06_case_large : forall bytes, zlen bytes = 5 * 2 ^ 30 -> exists x obs0, Forall (call_ok bytes INT32_MAX) [Skip (2 ^ 30)] /\ run mm_ops (mm_new bytes) [Skip (2 ^ 30)] = Ret (x, obs0) /\ mm_st x = Ok /\
  exists su, sub_new mm_ops x (3 * 2 ^ 30) = Ret su /\ Conforms (sub_ops mm_ops) (slice bytes (2 ^ 30) (3 * 2 ^ 30)) False INT32_MAX su view0.
Proof.
  intros bytes L.
  exists (mkMM bytes (5 * 2 ^ 30) (2 ^ 30) Ok), [mkObs (2 ^ 30) [] (2 ^ 30) (5 * 2 ^ 30) Ok].
  assert (Forall (call_ok bytes INT32_MAX) [Skip (2 ^ 30)]) as Hc by (constructor; [cbn; unfold INT32_MAX; lia|constructor]).
  assert (run mm_ops (mm_new bytes) [Skip (2 ^ 30)] = Ret (mkMM bytes (5 * 2 ^ 30) (2 ^ 30) Ok, [mkObs (2 ^ 30) [] (2 ^ 30) (5 * 2 ^ 30) Ok])) as Hr.
  { cbn [run exec mm_ops o_skip]. unfold mm_skip, mm_new. cbn [mm_size mm_pos mm_buf mm_st]. rewrite L. vm_compute. reflexivity. }
  split; [exact Hc|]. split; [exact Hr|]. split; [reflexivity|].
  destruct (C06_mapped_any_size bytes _ _ _ (3 * 2 ^ 30) ltac:(lia) Hc Hr ltac:(discriminate) ltac:(lia)) as (su & E & HC). exists su. split; [exact E|].
  cbn [mm_pos] in HC. eapply conforms_mono; [|reflexivity|exact HC]. lia.
Qed.

(** * C07 nesting *)
(** [l] lists for each level (size, offset skipped in it before the next level is created) *)
Theorem C07_nested_slices : forall (A : Type) (l : list (Z * Z)) (P : Type) (o : ops P A) (content : list A) lim s v,
  Conforms o content False lim s v -> nest_ok l (zlen content) (v_pos v) ->
  exists s', nestS l P o s = Ret s' /\
    exists v', v_pos v' = snd (nestC l content (v_pos v)) /\
      Conforms (nestO l P o) (fst (nestC l content (v_pos v))) False lim s' v'.
Proof. intros A l P o content lim s v. apply nest_conforms. Qed.
Theorem C07_nested_is_one_slice : forall (A : Type) (l : list (Z * Z)) (content : list A) q,
  0 <= q -> l <> [] -> nest_ok l (zlen content) q ->
  exists o, q <= o /\ fst (nestC l content q) = slice content o (zlen (fst (nestC l content q))) /\
    o + zlen (fst (nestC l content q)) <= q + fst (hd (0,0) l).
Proof. intros A l content q. apply nestC_flat. Qed.
Example C07_case : nest_ok [(5,1); (3,1); (2,0)] (zlen [0;1;2;3;4;5;6;7]) 2 /\
  nestC [(5,1); (3,1); (2,0)] [0;1;2;3;4;5;6;7] 2 = ([4;5], 0).
Proof. split; [unfold zlen; cbn; unfold INT32_MAX; lia|vm_compute; reflexivity]. Qed.

(** * C08 truncated parent *)
Theorem C08_truncated_is_error_partial : forall (P A : Type) (par : ops P A) (content : list A) lim p v n s0 l s obs mn mx,
  Conforms par content False lim p v ->
  0 <= n <= INT32_MAX -> zlen content - v_pos v < n ->
  sub_new par p n = Ret s0 ->
  Forall (call_ok (slice content (v_pos v) n) lim) l ->
  run (sub_ops par) s0 l = Ret (s, obs) -> su_st s <> Error ->
  call_ok (slice content (v_pos v) n) lim (Read mn mx) ->
  exists s' k d, sub_read par s mn mx = Ret (s', k, d) /\ k <> -1 /\
    (su_pos s = zlen content - v_pos v -> k = -2 /\ su_st s' = Error) /\
    (0 < k -> d = slice content (v_pos v + su_pos s) k).
Proof. intros P A par content lim p v n s0 l s obs mn mx. apply sub_truncated. Qed.
Example C08_case : exists s s', sub_new ss_ops (mkSS [1;2;3] 3 1 Ok) 5 = Ret s /\
  run (sub_ops ss_ops) s [Read 1 2; Read 1 0; Read 1 1] = Ret (s', [mkObs 2 [2;3] 2 5 Ok; mkObs (-2) [] 2 5 Error]).
Proof. do 2 eexists; split; [vm_compute; reflexivity|]; vm_compute; reflexivity. Qed.
(** status() itself can be Eof at the truncated end: reset copies the parent's status *)
Theorem C08_status_after_reset_refuted : exists s, sub_new ss_ops (mkSS [1;2;3] 3 1 Ok) 5 = Ret s /\
  exists s', run (sub_ops ss_ops) s [Reset 2] = Ret (s', [mkObs 2 [] 2 5 Eof]).
Proof. eexists; split; [vm_compute; reflexivity|]. eexists; vm_compute; reflexivity. Qed.

(** * C09 default skip *)
Theorem C09_default_skip : forall (St A : Type) (o : ops St A) (content : list A) (fails : Prop) lim s v n,
  1 <= lim -> Conforms o content fails lim s v -> 0 <= n ->
  exists s' k, default_skip (o_read o) s n = Ret (s', k) /\
    ((fails /\ o_status o s' = Error /\ k = -2) \/
     (k = Z.min n (zlen content - v_pos v) /\
      exists v', Conforms o content fails lim s' v' /\ v_pos v' = v_pos v + k)).
Proof.
  intros St A o content fails lim s v n Hl HC Hn.
  exact (default_skip_ok o content fails lim _ (conforms_sim o content fails lim) Hl s v n HC Hn).
Qed.
Example C09_case : default_skip (o_read ss_ops) (mkSS [1;2;3;4;5] 5 1 Ok) 9 = Ret (mkSS [1;2;3;4;5] 5 5 Eof, 4).
Proof. vm_compute; reflexivity. Qed.

(** * C10 draining *)
Theorem C10_drain : forall (St A : Type) (o : ops St A) (content : list A) (fails : Prop) lim s v l,
  Conforms o content fails lim s v -> ~ fails ->
  Forall (call_ok content lim) l -> Forall is_read l -> zlen content - v_pos v < Z.of_nat (length l) ->
  exists s' obs, run o s l = Ret (s', obs) /\ Exists (fun ob => ob_ret ob = -1) obs /\
    datas obs = slice content (v_pos v) (zlen content - v_pos v).
Proof. exact @drain_ends. Qed.
Example C10_case : exists s' obs, run ss_ops (mkSS [1;2;3;4;5] 5 0 Ok) [Read 1 1; Read 2 3; Read 4 4; Read 1 1; Read 1 1; Read 3 0] = Ret (s', obs) /\
  datas obs = [1;2;3;4;5].
Proof. do 2 eexists; split; [vm_compute; reflexivity|]. vm_compute; reflexivity. Qed.

(** * C21 file streams *)
Theorem C21_file : forall bytes fault seek bs,
  seek = zlen bytes \/ seek = 0 \/ seek = -1 -> 1 <= bs < 2 ^ 30 ->
  exists x, file_open bytes seek bs = Ret x /\
    Conforms (bs_ops (file_src bytes fault)) bytes (exists p n, fault p n = true) BUF_LIM x view0 /\
    (fault = (fun _ _ => false) -> Conforms (bs_ops (file_src bytes fault)) bytes False BUF_LIM x view0).
Proof. exact file_conforms. Qed.
Theorem C21_mmap_partial : forall bytes, 0 < zlen bytes -> Conforms mm_ops bytes False INT32_MAX (mm_new bytes) view0.
Proof. exact mm_conforms. Qed.
(** empty mapped file: the first read returns 0, not -1 *)
Theorem C21_mmap_empty_refuted : exists s', mm_read (mm_new []) 1 1 = Ret (s', 0, []) /\ mm_st s' = Eof.
Proof. eexists; split; [vm_compute; reflexivity|]; vm_compute; reflexivity. Qed.
(** SkippingFileInputStream: full contract for callers that treat 0 like -1 *)
Theorem C21_skipping_file_partial : forall bytes,
  Conforms (zero_is_end (skf_ops bytes)) bytes False BUF_LIM (skf_open bytes (zlen bytes)) view0.
Proof. exact skf_conforms. Qed.
Theorem C21_skipping_file_end_refuted : exists s', run (skf_ops [1;2]) (skf_open [1;2] 2) [Read 2 2; Read 1 1]
  = Ret (s', [mkObs 2 [1;2] 2 2 Ok; mkObs 0 [] 2 2 Eof]).
Proof. eexists; vm_compute; reflexivity. Qed.
(** reset to a negative position: a mapped file goes to its start, a SkippingFileInputStream reports an error *)
Theorem C21_reset_negative : forall bytes p, p < 0 ->
  (forall s, mm_buf s = bytes -> mm_size s = zlen bytes -> mm_st s <> Error -> exists s', mm_reset s p = Ret (s', 0) /\ mm_pos s' = 0 /\ mm_st s' = Ok) /\
  (forall s, exists s', skf_reset s p = Ret (s', -2) /\ sk_st s' = Error).
Proof.
  intros bytes p Hp. split.
  - intros s Eb Es Hs. unfold mm_reset. destruct (mm_st s) eqn:E; try congruence; rewrite Es; (destruct (Z.leb_spec (zlen bytes) p) as [H|H];
      [exfalso; unfold zlen in H; lia|]); (destruct (Z.ltb_spec p 0); [|lia]); eexists; (split; [reflexivity|]); split; reflexivity.
  - intros s. unfold skf_reset. destruct (Z.leb_spec 0 (sk_size s)); cbn [andb].
    + destruct (Z.ltb_spec (sk_size s) p); [lia|]. destruct (Z.ltb_spec p 0); [|lia]. eexists. split; reflexivity.
    + destruct (Z.ltb_spec p 0); [|lia]. eexists. split; reflexivity.
Qed.
Example C21_case : exists x x', file_open [1;2;3;4;5] 5 4 = Ret x /\
  run (bs_ops (file_src [1;2;3;4;5] (fun _ _ => false))) x [Read 1 2; Reset 1; Read 3 0; Read 2 2; Read 1 1]
   = Ret (x', [mkObs 2 [1;2] 2 5 Ok; mkObs 1 [] 1 5 Ok; mkObs 3 [2;3;4] 4 5 Ok; mkObs 1 [5] 5 5 Eof; mkObs (-1) [] 5 5 Eof]).
Proof. do 2 eexists; split; [vm_compute; reflexivity|]; vm_compute; reflexivity. Qed.
