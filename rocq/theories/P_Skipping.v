From Verif Require Import Base StreamSpec P_Stream M_Buffered BufferedSpec P_Buffered M_File P_File M_Skipping SkippingSpec.

Section K.
Context {S A : Type}.
Variables (src : source S A) (content : list A) (fails : Prop) (SR : S -> Z -> Prop) (SE : S -> Prop).
Hypothesis Hsrc : SrcOK src content fails SR SE.
Variable adv : option (status -> S -> Z -> out (S * Z * bool)).

(** Behind a skip the first [b_off] cells of the buffer hold other items than those before the position.
    [alt]: a list that agrees with the content from [base] on and with those cells before. *)
Definition agree (alt : list A) (base : Z) : Prop :=
  zlen alt = zlen content /\ 0 <= base /\ forall i, base <= i -> zget alt i = zget content i.
Definition SRb (base : Z) (s : S) (c : Z) : Prop := SR s c /\ base <= c.

Lemma slice_agree alt base o n : agree alt base -> base <= o -> slice alt o n = slice content o n.
Proof.
  intros (HL & H0 & HA) Ho. destruct (Z.lt_ge_cases n 0) as [Hn|Hn].
  { unfold slice. replace (Z.to_nat n) with O by lia. reflexivity. }
  apply zget_ext. intros i. rewrite !zget_slice by lia. destruct (Z.leb_spec 0 i), (Z.ltb_spec i n); cbn [andb]; try reflexivity. apply HA. lia.
Qed.
Lemma src_alt alt base : agree alt base -> SrcOK src alt fails (SRb base) SE.
Proof.
  intros HA s c space (HS & Hc) Hsp. destruct (Hsrc s c space HS Hsp) as (s' & n & d & err & E & Hd & Hcase).
  pose proof (slice_agree alt base) as SL. assert (zlen alt = zlen content) as HL by apply HA.
  exists s', n, d, err. split; [exact E|]. split; [exact Hd|].
  destruct Hcase as [(C1 & C2 & C3 & C4 & C5 & C6)|[(C1 & C2 & C3 & C4)|[(C1 & C2 & C3 & C4)|(C1 & C2 & C3)]]].
  - left. rewrite HL, (SL c n HA Hc). split; [exact C1|]. split; [exact C2|]. split; [exact C3|]. split; [exact C4|]. split; [split; [exact C5|lia]|exact C6].
  - right; left. split; [exact C1|]. split; [exact C2|]. split; [split; [exact C3|exact Hc]|exact C4].
  - right; right; left. rewrite HL. auto.
  - right; right; right. split; [exact C1|]. split; [exact C2|]. rewrite HL, (SL c n HA Hc). exact C3.
Qed.

Definition sk_R (x : bstream S A) (v : view) : Prop :=
  view_ok content v /\ exists alt base, agree alt base /\ base <= v_lo v /\
  bs_core alt fails (SRb base) SE x (v_pos v) /\
  v_pos v - b_off (bs_buf x) <= v_lo v /\ v_hi v <= v_pos v + b_avail (bs_buf x).

Lemma zlen_agree alt base : agree alt base -> zlen alt = zlen content. Proof. intros H; apply H. Qed.
Lemma core_R x alt base pos : agree alt base -> base <= pos -> bs_core alt fails (SRb base) SE x pos -> sk_R x (mkView pos pos pos).
Proof.
  intros HA Hb HC. pose proof (bs_core_view alt fails (SRb base) SE x pos HC) as HV.
  unfold view_ok in HV. cbn in HV. rewrite (zlen_agree _ _ HA) in HV. split; [unfold view_ok; cbn; exact HV|].
  exists alt, base. split; [exact HA|]. split; [exact Hb|]. split; [exact HC|]. cbn [v_pos v_lo v_hi]. destruct HC as ((? & ? & _) & _). lia.
Qed.

Lemma sk_read_step x v mn mx : sk_R x v -> call_ok content BUF_LIM (Read mn mx) ->
  exists s' ob, exec (sk_ops src adv) x (Read mn mx) = Ret (s', ob) /\
    (bad_obs content fails v (Read mn mx) ob \/ good_obs content fails v (Read mn mx) ob /\ sk_R s' (next_view v (Read mn mx) ob)).
Proof.
  intros (Hv & alt & base & HA & Hb & HC & Hlo & Hhi) Hc. cbn [call_ok] in Hc. unfold view_ok in Hv.
  destruct (bs_read_core src alt fails (SRb base) SE (src_alt alt base HA) x (v_pos v) mn mx HC) as (x' & n & d & E & Hres); [lia|].
  cbn [exec sk_ops o_read]. unfold sk_read. rewrite E; cbn [bind]. do 2 eexists; split; [reflexivity|].
  pose proof (zlen_agree _ _ HA) as HL.
  destruct Hres as [(Q1 & Q2 & Q3)|[(Q1 & Q2 & Q3 & Q4 & Q5 & Q6 & Q7 & _)|(Q1 & Q2 & Q3 & Q4 & Q5 & _)]].
  - left. unfold bad_obs; cbn. tauto.
  - right. assert (Q2' := Q2). destruct Q2' as (T1 & T2 & T3 & T4 & T5 & T6 & T7). rewrite HL in *.
    rewrite (slice_agree alt base) in Q3 by (exact HA || lia).
    unfold good_obs. cbn [observe ob_ret ob_data ob_st ob_pos ob_size o_pos o_size o_status sk_ops next_view].
    destruct (Z.ltb_spec 0 n); [|lia]. cbn [v_pos].
    split; [repeat split; try assumption; left; repeat split; try assumption; lia|].
    destruct T1 as (?&?&?&?&?&?&_). rewrite HL in *.
    split; [unfold view_ok; cbn [v_pos v_lo v_hi]; lia|]. exists alt, base. split; [exact HA|]. cbn [v_pos v_lo v_hi]. split; [lia|]. split; [exact Q2|]. lia.
  - right. subst n d. assert (Q3' := Q3). destruct Q3' as (T1 & T2 & T3 & T4 & T5 & T6 & T7). rewrite HL in *.
    unfold good_obs. cbn [observe ob_ret ob_data ob_st ob_pos ob_size o_pos o_size o_status sk_ops next_view Z.ltb Z.compare v_pos].
    split; [repeat split; try assumption; try lia; right; repeat split; assumption|]. eapply core_R; [exact HA|lia|exact Q3].
Qed.
Lemma sk_reset_step x v p : sk_R x v -> 0 <= p <= zlen content -> (v_lo v <= p < v_hi v \/ p = v_pos v) ->
  exists s' ob, exec (sk_ops src adv) x (Reset p) = Ret (s', ob) /\ good_obs content fails v (Reset p) ob /\ sk_R s' (next_view v (Reset p) ob).
Proof.
  intros (Hv & alt & base & HA & Hb & HC & Hlo & Hhi) Hp Hr. unfold view_ok in Hv.
  cbn [exec sk_ops o_reset]. unfold sk_reset. destruct (Z.ltb_spec p 0); [lia|].
  pose proof (zlen_agree _ _ HA) as HL.
  assert (HC' := HC). destruct HC' as (T1 & T2 & T3 & T4 & T5 & T6 & T7).
  assert (T1' := T1). destruct T1' as (U1&U2&U3&U4&U5&U6&U7). rewrite T2.
  assert (forall (y : out (bstream S A * Z)), match bs_st x with Error => Ret (x, -2) | _ => y end = y) as EM
    by (intros; destruct (bs_st x); congruence).
  rewrite EM. clear EM. rewrite HL in *.
  destruct (Z.leb_spec (v_pos v - p) (b_off (bs_buf x))); [|lia]. cbn [andb].
  destruct (Z.ltb_spec (- (v_pos v - p)) (b_avail (bs_buf x))); cbn [bind]; do 2 eexists; (split; [reflexivity|]).
  - assert (bs_core alt fails (SRb base) SE (mkBS (mkBuf (b_mem (bs_buf x)) (b_off (bs_buf x) - (v_pos v - p))
        (b_avail (bs_buf x) + wrap32 (v_pos v - p))) (bs_fin x) (bs_src x) (bs_size x) (v_pos v - (v_pos v - p)) Ok) p) as HC2.
    { rewrite wrap32_id by (unfold INT32_MIN, INT32_MAX, BUF_LIM in *; lia).
      unfold bs_core. cbn [bs_buf bs_pos bs_st bs_fin bs_src bs_size].
      unfold rep. unfold b_size in *. cbn [b_mem b_off b_avail]. rewrite HL.
      replace (p + (b_avail (bs_buf x) + (v_pos v - p))) with (v_pos v + b_avail (bs_buf x)) by lia.
      split; [|split; [lia|split; [congruence|split; [exact T4|split; [exact T5|split; [congruence|exact T7]]]]]].
      repeat split; try lia. intros i Hi. rewrite U7 by lia. f_equal. f_equal; lia. }
    unfold good_obs. cbn [observe ob_ret ob_data ob_st ob_pos ob_size o_pos o_size o_status sk_ops next_view bs_pos bs_size bs_st].
    replace (v_pos v - (v_pos v - p)) with p in * by lia.
    destruct (Z.leb_spec (v_lo v) p), (Z.leb_spec p (v_hi v)); try lia; cbn [andb v_pos].
    split.
    + split; [congruence|]. split; [congruence|]. repeat split; try assumption; lia.
    + split; [unfold view_ok; cbn; lia|]. exists alt, base. split; [exact HA|]. cbn [v_pos v_lo v_hi]. split; [lia|]. split; [exact HC2|]. cbn [bs_buf b_off b_avail].
      rewrite wrap32_id by (unfold INT32_MIN, INT32_MAX, BUF_LIM in *; lia). lia.
  - assert (p = v_pos v) as -> by lia.
    unfold good_obs. cbn [observe ob_ret ob_data ob_st ob_pos ob_size o_pos o_size o_status sk_ops next_view bs_pos bs_size bs_st].
    destruct (Z.leb_spec (v_lo v) (v_pos v)), (Z.leb_spec (v_pos v) (v_hi v)); try lia; cbn [andb v_pos].
    split; [split; [exact T3|]; split; [exact T6|]; split; [exact T2|]; split; [exact T7|]; split; [reflexivity|lia]|].
    split; [unfold view_ok; cbn; lia|]. exists alt, base. split; [exact HA|]. cbn [v_pos v_lo v_hi]. split; [lia|]. split; [exact HC|]. lia.
Qed.
(** dropping the rest of the buffer and going on at [q] *)
Lemma flush x alt base pos q s' z st : agree alt base -> base <= pos -> bs_core alt fails (SRb base) SE x pos ->
  pos + b_avail (bs_buf x) <= q <= zlen content -> st <> Error -> (st = Eof -> q = zlen content) ->
  (fails \/ z = -1 \/ z = zlen content) ->
  (bs_fin x = false -> SR s' q) -> (bs_fin x = true -> SE s' /\ q = zlen content) ->
  exists alt', agree alt' q /\
    bs_core alt' fails (SRb q) SE (mkBS (mkBuf (b_mem (bs_buf x)) (b_off (bs_buf x)) 0) (bs_fin x) s' z q st) q.
Proof.
  intros HA Hb HC Hq Hst He Hz HF HT. pose proof (zlen_agree _ _ HA) as HL. destruct HC as (T1 & T2 & T3 & T4 & T5 & T6 & T7).
  set (b := bs_buf x) in *. destruct T1 as (U1&U2&U3&U4&U5&U6&U7). rewrite HL in *.
  set (vals := slice alt (pos - b_off b) (b_off b)).
  assert (zlen vals = b_off b) as ZV by (unfold vals; apply zlen_slice; rewrite ?HL; lia).
  set (alt' := slice content 0 (q - b_off b) ++ vals ++ slice content q (zlen content - q)).
  assert (zlen (slice content 0 (q - b_off b)) = q - b_off b) as Z1 by (apply zlen_slice; lia).
  assert (zlen (slice content q (zlen content - q)) = zlen content - q) as Z2 by (apply zlen_slice; lia).
  assert (agree alt' q) as HA'.
  { split; [unfold alt'; rewrite !zlen_app, Z1, Z2, ZV; lia|]. split; [lia|]. intros i Hi. unfold alt'. rewrite !zget_app, Z1, ZV.
    destruct (Z.ltb_spec i (q - b_off b)); [lia|]. destruct (Z.ltb_spec (i - (q - b_off b)) (b_off b)); [lia|].
    rewrite zget_slice by (lia).
    destruct (Z.leb_spec 0 (i - (q - b_off b) - b_off b)); [|lia]. cbn [andb].
    destruct (Z.ltb_spec (i - (q - b_off b) - b_off b) (zlen content - q)).
    - f_equal; lia.
    - symmetry. apply zget_none_big. lia. }
  exists alt'. split; [exact HA'|]. unfold bs_core. cbn [bs_buf bs_pos bs_st bs_fin bs_src bs_size b_avail].
  rewrite Z.add_0_r. rewrite (zlen_agree _ _ HA').
  split; [|split; [reflexivity|split; [exact Hst|split; [|split; [exact HT|split; [exact He|exact Hz]]]]]].
  - unfold rep, b_size in *. cbn [b_mem b_off b_avail]. rewrite (zlen_agree _ _ HA'). split; [lia|]. split; [lia|]. split; [lia|]. split; [exact U4|]. split; [lia|]. split; [lia|].
    intros i Hi. rewrite U7 by lia. f_equal. unfold alt'. rewrite !zget_app, Z1, ZV.
    destruct (Z.ltb_spec (q - b_off b + i) (q - b_off b)); [lia|]. destruct (Z.ltb_spec (q - b_off b + i - (q - b_off b)) (b_off b)); [|lia].
    unfold vals. rewrite zget_slice by lia. destruct (Z.leb_spec 0 (q - b_off b + i - (q - b_off b))); [|lia].
    destruct (Z.ltb_spec (q - b_off b + i - (q - b_off b)) (b_off b)); [|lia]. cbn [andb]. f_equal; lia.
  - intros F. split; [exact (HF F)|lia].
Qed.
(** what an overridden advanceInput must do inside the data *)
Definition adv_ok (f : status -> S -> Z -> out (S * Z * bool)) : Prop :=
  forall st s c n, st <> Error -> SR s c -> 0 < n -> c + n <= zlen content -> exists s', f st s n = Ret (s', n, false) /\ SR s' (c + n).
Lemma sk_skip_step x v n : sk_R x v -> 0 <= n <= INT32_MAX ->
  match adv with None => ~ fails | Some f => adv_ok f /\ v_pos v + n <= zlen content end ->
  exists s' ob, exec (sk_ops src adv) x (Skip n) = Ret (s', ob) /\ good_obs content fails v (Skip n) ob /\ sk_R s' (next_view v (Skip n) ob).
Proof.
  intros (Hv & alt & base & HA & Hb & HC & Hlo & Hhi) Hn Had. unfold view_ok in Hv. pose proof (zlen_agree _ _ HA) as HL.
  assert (GO : forall x' k a b, agree a b -> b <= v_pos v + k -> bs_core a fails (SRb b) SE x' (v_pos v + k) -> 0 <= k <= n -> v_pos v + k <= zlen content ->
      (k = n \/ v_pos v + k = zlen content) -> sk_skip src adv x n = Ret (x', k) ->
      exists s' ob, exec (sk_ops src adv) x (Skip n) = Ret (s', ob) /\ good_obs content fails v (Skip n) ob /\ sk_R s' (next_view v (Skip n) ob)).
  { intros x' k a b0 HAa Hba HCa Hk Hz He E. cbn [exec sk_ops o_skip]. rewrite E. cbn [bind]. do 2 eexists. split; [reflexivity|].
    pose proof (zlen_agree _ _ HAa) as HLa. assert (HCb := HCa). destruct HCb as (T1 & T2 & T3 & T4 & T5 & T6 & T7). rewrite HLa in *.
    unfold good_obs. cbn [observe ob_ret ob_data ob_st ob_pos ob_size o_pos o_size o_status sk_ops next_view v_pos]. rewrite Z.max_r by lia. cbn [v_pos].
    split; [repeat split; try assumption; left; lia|]. eapply core_R; eassumption. }
  assert (HC' := HC). destruct HC' as (T1 & T2 & T3 & T4 & T5 & T6 & T7).
  assert (T1' := T1). destruct T1' as (U1&U2&U3&U4&U5&U6&U7). rewrite HL in *.
  unfold sk_skip in GO |- *. destruct (Z.ltb_spec n 0); [lia|].
  destruct (Z.eqb_spec n 0) as [->|N0].
  { apply (GO x 0 alt base); try lia; try assumption; try reflexivity. rewrite Z.add_0_r. exact HC. }
  destruct (Z.ltb_spec n (b_avail (bs_buf x))) as [LB|LB].
  { eapply (GO _ n alt base); try lia; try assumption; try reflexivity.
    unfold bs_core. cbn [bs_buf bs_pos bs_st bs_fin bs_src bs_size]. unfold rep, b_size in *. cbn [b_mem b_off b_avail]. rewrite HL.
    replace (v_pos v + n + (b_avail (bs_buf x) - n)) with (v_pos v + b_avail (bs_buf x)) by lia.
    split; [|split; [lia|split; [exact T3|split; [exact T4|split; [exact T5|split; [|exact T7]]]]]].
    - repeat split; try lia. intros i Hi. rewrite U7 by lia. f_equal. f_equal; lia.
    - intros F. specialize (T6 F). lia. }
  rewrite T2 in *. set (q := v_pos v + b_avail (bs_buf x)) in *. set (b := bs_buf x) in *.
  set (x1 := mkBS (mkBuf (b_mem b) (b_off b) 0) (bs_fin x) (bs_src x) (bs_size x) q (bs_st x)) in *.
  assert (exists alt', agree alt' q /\ bs_core alt' fails (SRb q) SE x1 q) as (alt' & HA' & HC2).
  { apply (flush x alt base (v_pos v) q (bs_src x) (bs_size x) (bs_st x)); try assumption; fold b; try lia.
    - intros F. specialize (T6 F). unfold q in *. lia.
    - intros F. apply (T4 F). }
  pose proof (zlen_agree _ _ HA') as HL'.
  destruct (Z.eqb_spec (n - b_avail b) 0) as [NE|NE].
  { cbn [bind] in *. cbn [Z.ltb Z.compare] in *. destruct (Z.ltb_spec 0 (n - b_avail b)); [lia|].
    apply (GO (mkBS (bs_buf x1) (bs_fin x1) (bs_src x1) (bs_size x1) (q + 0) (bs_st x1)) (0 + b_avail b) alt' q); try lia; try assumption.
    - replace (v_pos v + (0 + b_avail b)) with q by (unfold q; lia). rewrite Z.add_0_r. exact HC2.
    - reflexivity. }
  unfold sk_advance in *. destruct adv as [f|].
  - destruct Had as (HAdv & Hin).
    assert (bs_fin x = false) as F by (destruct (bs_fin x); [destruct (T5 eq_refl); unfold q in *; lia|reflexivity]).
    destruct (T4 F) as (HSq & _).
    destruct (HAdv (bs_st x) (bs_src x) q (n - b_avail b) T3 HSq ltac:(lia) ltac:(unfold q; lia)) as (s' & Ef & HS').
    change (bs_src x1) with (bs_src x) in *. change (bs_st x1) with (bs_st x) in *. rewrite Ef in *. cbn [bind] in *.
    destruct (Z.ltb_spec (n - b_avail b) 0); [lia|]. destruct (Z.ltb_spec (n - b_avail b) (n - b_avail b)); [lia|].
    destruct (flush x alt base (v_pos v) (q + (n - b_avail b)) s' (bs_size x) (bs_st x)) as (alt2 & HA2 & HC3); try assumption; fold b; try (unfold q; lia).
    { intros E. specialize (T6 E). unfold q in *. lia. } { intros _. exact HS'. } { intros E; congruence. }
    eapply (GO _ (n - b_avail b + b_avail b) alt2 (q + (n - b_avail b))); try (unfold q; lia); try assumption; try reflexivity.
    replace (v_pos v + (n - b_avail b + b_avail b)) with (q + (n - b_avail b)) by (unfold q; lia). exact HC3.
  - destruct (bs_skip_core src alt' fails (SRb q) SE (src_alt alt' q HA') (Z.to_nat (n - b_avail b)) x1 q (n - b_avail b) 0 HC2) as (x2 & k & E & Hk & Hres); try lia.
    rewrite bs_skip_nonneg in * by lia. rewrite E in *. cbn [bind] in *. rewrite Z.add_0_l in *.
    destruct Hres as [(_ & Q)|(Q1 & Q2 & Q3)]; [contradiction|]. rewrite HL' in *.
    destruct (Z.ltb_spec k 0); [lia|]. assert (Q1' := Q1). destruct Q1' as (V1 & V2 & V3 & V4 & V5 & V6 & V7). rewrite HL' in *.
    destruct (Z.ltb_spec k (n - b_avail b)).
    + eapply (GO _ (k + b_avail b) alt' q); try (unfold q in *; lia); try assumption; try reflexivity.
      replace (v_pos v + (k + b_avail b)) with (q + k) by (unfold q; lia). unfold bs_core. cbn [bs_buf bs_pos bs_st bs_fin bs_src bs_size]. rewrite HL'.
      split; [exact V1|]. split; [reflexivity|]. split; [discriminate|]. split; [exact V4|]. split; [exact V5|]. split; [lia|].
      destruct (Z.eqb_spec (bs_size x2) (-1)); [right; right; lia|exact V7].
    + eapply (GO _ (k + b_avail b) alt' q); try (unfold q in *; lia); try assumption; try reflexivity.
      replace (v_pos v + (k + b_avail b)) with (q + k) by (unfold q; lia). unfold bs_core. cbn [bs_buf bs_pos bs_st bs_fin bs_src bs_size]. rewrite HL'.
      split; [exact V1|]. split; [reflexivity|]. split; [exact V3|]. split; [exact V4|]. split; [exact V5|]. split; [exact V6|exact V7].
Qed.
Lemma sk_init x : bs_init_ok content fails SR x -> sk_R x view0.
Proof.
  intros H. apply (bs_init_R content fails SR SE) in H. destruct H as (Hv & HC & Hlo & Hhi). split; [exact Hv|].
  exists content, 0. split; [split; [reflexivity|split; [lia|reflexivity]]|]. split; [cbn; lia|]. split; [|split; [exact Hlo|exact Hhi]].
  destruct HC as (T1 & T2 & T3 & T4 & T5 & T6 & T7). split; [exact T1|]. split; [exact T2|]. split; [exact T3|]. split; [|split; [exact T5|split; [exact T6|exact T7]]].
  intros F. split; [exact (T4 F)|]. destruct T1 as (_ & U & _). cbn [view0 v_pos] in *. lia.
Qed.
Lemma sk_behaves (rule : view -> call -> Prop) : (forall v c, rule v c -> match c with
    | Reset p => v_lo v <= p < v_hi v \/ p = v_pos v
    | Skip n => match adv with None => ~ fails | Some f => adv_ok f /\ v_pos v + n <= zlen content end
    | Read _ _ => True end) ->
  forall l x v, sk_R x v -> behaves rule (sk_ops src adv) content fails BUF_LIM x v l.
Proof.
  intros HR l. induction l as [|c l IH]; intros x v H; [exact I|]. cbn [behaves]. intros Hc Hr. specialize (HR v c Hr).
  destruct c as [mn mx|n|p].
  - destruct (sk_read_step x v mn mx H Hc) as (s' & ob & E & [B|(G & R)]); exists s', ob; (split; [exact E|]); [left; exact B|right; split; [exact G|apply IH, R]].
  - destruct (sk_skip_step x v n H Hc HR) as (s' & ob & E & G & R). exists s', ob. split; [exact E|]. right. split; [exact G|apply IH, R].
  - destruct (sk_reset_step x v p H Hc HR) as (s' & ob & E & G & R). exists s', ob. split; [exact E|]. right. split; [exact G|apply IH, R].
Qed.
End K.
