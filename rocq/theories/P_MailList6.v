From Verif Require Import Base StreamSpec P_Stream KmpSpec SegSpec M_Ar M_Mail M_Reader M_Sub M_Kmp P_Kmp M_Buffered BufferedSpec P_Buffered M_Base64 B64Spec P_Base64 M_StringTerm P_StringTerm ArchiveSpec M_MailList MailPartsSpec P_MailList1 P_MailList5.

(** a buffered stream whose source does not fail stays usable *)
Section Never.
Context {S A : Type}.
Variables (src : source S A) (content : list A) (SR : S -> Z -> Prop) (SE : S -> Prop).
Hypothesis Hsrc : SrcOK src content False SR SE.
Lemma bs_run_R l : forall x v, bs_R content False SR SE x v -> Forall (call_ok content BUF_LIM) l ->
  exists x' obs v', run (bs_ops src) x l = Ret (x', obs) /\ accepts content False v l obs /\ bs_R content False SR SE x' v'.
Proof.
  induction l as [|c l IH]; intros x v HR Hl; cbn [run accepts].
  - exists x, [], v. auto.
  - inversion Hl as [|? ? Hc Hl']; subst.
    destruct (sim_step _ _ _ _ _ (bs_sim src content False SR SE Hsrc) x v c HR Hc) as (x1 & ob & E & [[G HR1]|B]).
    + rewrite E; cbn [bind]. assert (ob_st ob <> Error) as Hne by apply G. rewrite (is_error_false _ Hne).
      destruct (IH x1 _ HR1 Hl') as (x2 & obs & v2 & E2 & A2 & R2). rewrite E2; cbn [bind]. exists x2, (ob :: obs), v2. split; [reflexivity|].
      cbn [accepts]. rewrite (is_error_false _ Hne). auto.
    + exfalso. destruct HR as (Hv & HC & _). destruct c as [mn mx|n|p]; cbn [call_ok] in Hc.
      * destruct B as (_ & B & _). exact B.
      * cbn [exec bs_ops o_skip] in E. rewrite bs_skip_nonneg in E by lia.
        destruct (bs_skip_core src content False SR SE Hsrc (Z.to_nat n) x (v_pos v) n 0 HC) as (x' & k & Ek & Hk & Hres); try lia.
        rewrite Ek in E. cbn [bind] in E. injection E as <- <-. destruct Hres as [(_ & [])|(Q & _)]. destruct Q as (_ & _ & Q & _). destruct B as (B & _). cbn in B. congruence.
      * destruct B as (_ & B). cbn in B. tauto.
Qed.
End Never.

Section PC.
Context {P : Type}.
Variables (par : ops P Z) (full : list Z) (lim : Z) (R : P -> view -> Prop).
Hypothesis HS : sim par full False lim R.
Hypothesis HB : bytes full.
Hypothesis HL : zlen full <= INT32_MAX.

Record pctx (q : list Z) (key : searcher) (off len : Z) : Prop := {
  pc_key : k_ok key; pc_q : k_query key = q; pc_tail : short_or_unique_tail q; pc_off : 0 <= off; pc_len : 0 < len; pc_offl : off + len <= zlen full;
  pc_first : forall d, off <= d < off + len -> ~ P_StringTerm.occ full q d; pc_found : P_StringTerm.occ full q (off + len);
  pc_tl : 0 < zlen q; pc_lim : 1 + zlen q <= lim; pc_m : 1 + zlen q <= INT32_MAX }.
Variables (q : list Z) (key : searcher) (off len : Z).
Hypothesis HC : pctx q key off len.
Definition tin := tinv full R key off len true.

Lemma p_read s v : tin s v -> exists s' n d, st_read par s 1 0 = Ret (s', n, d) /\ good_obs (cont full off len) False v (Read 1 0) (observe (st_ops par) s' n d) /\
  tin s' (next_view v (Read 1 0) (observe (st_ops par) s' n d)).
Proof.
  intros Ht. destruct HC. destruct (st_read_ok par full lim R HS q key pc_key0 pc_q0 pc_tail0 HB HL off len true pc_off0 ltac:(lia) pc_offl0 pc_first0 (conj pc_found0 pc_len0) pc_tl0 pc_lim0 pc_m0 s v 1 0 Ht ltac:(lia) ltac:(lia) ltac:(lia) ltac:(lia)) as (s' & n & d & E & G & T & _).
  exists s', n, d. auto.
Qed.
Lemma p_run s v l : tin s v -> Forall (seg_call lim (zlen q)) l -> exists s' obs, run_seg false (st_ops par) s v l = Ret (s', obs) /\
  accepts_seg false (cont full off len) False v l obs /\ exists v', tin s' v'.
Proof.
  intros Ht Hl. destruct HC. destruct (st_run_ok par full lim R HS q key pc_key0 pc_q0 pc_tail0 HB HL off len true pc_off0 ltac:(lia) pc_offl0 pc_first0 (conj pc_found0 pc_len0) pc_tl0 pc_lim0 pc_m0 l s v Ht Hl) as (s' & obs & E & A & T & _).
  exists s', obs. auto.
Qed.
Lemma p_cont_len : zlen (cont full off len) = len.
Proof. destruct HC. unfold cont. apply zlen_slice; lia. Qed.

(** reading what is left *)
Lemma drain_ok : forall f s v, tin s v -> len - v_pos v < Z.of_nat f -> exists s', drain par f s = Ret s' /\ t_st s' = Eof /\ t_off s' = off /\ t_size s' = len /\ at_ R (t_in s') (off + len).
Proof.
  induction f as [|f IH]; intros s v Ht Hf; cbn [drain].
  - exfalso. destruct Ht as (Hv & _). unfold view_ok in Hv. rewrite p_cont_len in Hv. lia.
  - assert (Ht' := Ht). destruct Ht' as (Hv & Hk & Ho & Hp & Hsi & Hf1 & Hf2 & Hf0 & (vp & HR & Vl & Vh & Vp) & Hst). unfold view_ok in Hv. rewrite p_cont_len in Hv.
    destruct Hst as [(Es & Hlt)|(Es & Hend & Hsz)]; rewrite Es.
    + destruct (p_read s v Ht) as (s' & n & d & E & G & T). rewrite E; cbn [bind].
      destruct G as (G1 & G2 & G3 & G4 & [(R1 & R2 & R3 & R4 & R5)|(R1 & R2 & R3 & R4)]); cbn [observe ob_ret next_view] in *; [|rewrite p_cont_len in R3; lia].
      destruct (Z.ltb_spec 0 n) as [_|?]; [|lia]. apply (IH s' _ T). cbn [v_pos]. lia.
    + exists s. split; [reflexivity|]. split; [exact Es|]. split; [exact Ho|]. split; [apply Hsz; reflexivity|]. exists vp. split; [exact HR|]. lia.
Qed.

(** an encoded part *)
Variable fuel : nat.
Hypothesis Hfuel : zlen full < Z.of_nat fuel.
Definition edata : list Z := b64decoded (cont full off len).
Lemma b_src : SrcOK (b64_src (st_ops par) fuel) edata False (q_SR (cont full off len) tin fuel edata) (q_SE tin).
Proof.
  apply b64_SrcOK.
  - intros s v Ht. apply Ht.
  - intros s v Ht. destruct (p_read s v Ht) as (s' & n & d & E & G & T). exists s', n, d. split; [exact E|]. left. auto.
  - unfold cont. apply (bytes_slice full HB).
Qed.
Lemma b_init s : tin s view0 -> bs_R edata False (q_SR (cont full off len) tin fuel edata) (q_SE tin) (bs_new (b64_new s)) view0.
Proof.
  intros Ht. apply bs_init_R. unfold bs_init_ok, bs_new; cbn [bs_buf bs_fin bs_src bs_pos bs_st bs_size buf0 b_off b_avail].
  change (b_size (@buf0 Z)) with 0. unfold BUF_LIM. split; [reflexivity|]. split; [reflexivity|]. split; [lia|]. split; [reflexivity|]. split; [|auto].
  split; [split; [lia|apply zlen_nonneg]|]. split; [cbn; lia|]. exists edata. split; [reflexivity|]. unfold alive; cbn [b64_new q_in q_win q_todo q_bits q_cc].
  exists view0, []. split; [exact Ht|]. split; [constructor|]. split; [constructor|]. split; [cbn; lia|]. split; [apply b64decoded_dec|].
  pose proof p_cont_len as Lc. destruct HC. split; [unfold rest; cbn [app]; rewrite skipn_length; unfold zlen in *; lia|]. left. repeat split.
Qed.
Lemma b_run s l : tin s view0 -> Forall (call_ok edata BUF_LIM) l ->
  exists x obs, run (bs_ops (b64_src (st_ops par) fuel)) (bs_new (b64_new s)) l = Ret (x, obs) /\ accepts edata False view0 l obs /\
    exists v', tin (q_par (bs_src x)) v'.
Proof.
  intros Ht Hl. destruct (bs_run_R _ _ _ _ b_src l _ _ (b_init s Ht) Hl) as (x & obs & v' & E & A & HR). exists x, obs. split; [exact E|]. split; [exact A|].
  destruct HR as (_ & (_ & _ & _ & H1 & H2 & _) & _). destruct (bs_fin x).
  - destruct (H2 eq_refl) as ((v2 & H) & _). exists v2. exact H.
  - destruct (H1 eq_refl) as (_ & _ & tl & _ & Ha). unfold alive, q_par in *. destruct (q_in (bs_src x)) as [p|p].
    + destruct Ha as (v2 & acc & H & _). exists v2. exact H.
    + destruct Ha as (_ & v2 & H). exists v2. exact H.
Qed.
End PC.
