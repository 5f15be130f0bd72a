From Verif Require Import Base StreamSpec P_Stream M_Buffered BufferedSpec.

Lemma all_some_map {A} (l : list A) : all_some (map Some l) = Some l.
Proof. induction l as [|x l IH]; cbn; [reflexivity|]. rewrite IH; reflexivity. Qed.

Section B.
Context {A : Type}.
Variable content : list A.

(** the whole written part of the memory mirrors the content around [pos] *)
Definition rep (b : buf A) (pos : Z) : Prop :=
  0 <= b_off b /\ 0 <= b_avail b /\ b_off b + b_avail b <= b_size b /\ b_size b <= 2 * BUF_LIM - 1 /\
  0 <= pos - b_off b /\ pos + b_avail b <= zlen content /\
  forall i, 0 <= i < b_off b + b_avail b -> zget (b_mem b) i = Some (zget content (pos - b_off b + i)).

Lemma rep_le b pos : rep b pos -> b_off b + b_avail b <= zlen content.
Proof. unfold rep; lia. Qed.

Lemma setSize_ok (b : buf A) sz : 0 <= b_off b -> 0 <= b_avail b -> b_off b + b_avail b <= b_size b -> b_size b <= sz ->
  exists b', setSize b sz = Ret b' /\ b_off b' = b_off b /\ b_avail b' = b_avail b /\ b_size b' = sz /\
    forall i, i < b_size b -> zget (b_mem b') i = zget (b_mem b) i.
Proof.
  intros H1 H2 H3 H4. unfold setSize.
  replace (_ && _ && _ && _) with true by (symmetry; rewrite !andb_true_iff, !Z.leb_le; lia).
  eexists. split; [reflexivity|]. cbn [b_off b_avail]. repeat split.
  - unfold b_size in *. cbn [b_mem]. rewrite zlen_app, zlen_repeat.
    rewrite firstn_all2 by (unfold zlen in *; lia). lia.
  - intros i Hi. cbn [b_mem]. rewrite firstn_all2 by (unfold b_size, zlen in *; lia).
    rewrite zget_app. unfold b_size in Hi. destruct (Z.ltb_spec i (zlen (b_mem b))); [reflexivity|lia].
Qed.

Lemma makeSpace_ok b pos needed : rep b pos -> 1 <= needed -> b_avail b + needed <= BUF_LIM ->
  exists b' space, makeSpace b needed = Ret (b', space) /\ rep b' pos /\ b_avail b' = b_avail b /\
    needed <= space /\ b_off b' + b_avail b' + space <= b_size b' /\ space <= INT32_MAX /\ b_off b' <= b_off b /\
    (b_size b' = b_size b \/ (b_size b < b_avail b + needed /\ b_size b' <= Z.max (2 * b_size b) (b_avail b + needed))).
Proof.
  intros (R1 & R2 & R3 & R4 & R5 & R6 & R7) Hn Hl. unfold BUF_LIM in *. unfold makeSpace.
  replace (negb _) with false.
  2:{ symmetry. apply negb_false_iff. rewrite !andb_true_iff, !Z.leb_le. lia. }
  destruct (Z.leb_spec needed (b_size b - b_off b - b_avail b)) as [L|L].
  { exists b, (b_size b - b_off b - b_avail b). unfold rep, INT32_MAX, BUF_LIM. repeat split; try lia; assumption. }
  match goal with |- context [let '(b1, space1) := ?e in _] => set (e1 := e) end.
  assert (exists b1, e1 = (b1, b_size b - b_avail b) /\ rep b1 pos /\ b_off b1 = 0 /\ b_avail b1 = b_avail b /\ b_size b1 = b_size b)
    as (b1 & E1 & Rb1 & Ho1 & Ha1 & Hs1).
  { unfold e1. destruct (Z.eqb_spec (b_avail b) 0) as [E|E].
    - eexists. split; [rewrite E, Z.sub_0_r; reflexivity|]. unfold rep, BUF_LIM, b_size in *. cbn in *.
      repeat split; try lia. all: try (intros; lia).
    - destruct (Z.eqb_spec (b_off b) 0) as [E0|E0].
      + exists b. rewrite E0, Z.sub_0_r. unfold rep, BUF_LIM. repeat split; try lia; assumption.
      + eexists. split; [f_equal; lia|].
        assert (zlen (slice (b_mem b) (b_off b) (b_avail b)) = b_avail b) as Z1
          by (apply zlen_slice; unfold b_size in *; lia).
        assert (zlen (splice (b_mem b) 0 (slice (b_mem b) (b_off b) (b_avail b))) = zlen (b_mem b)) as Z2
          by (apply zlen_splice; unfold b_size in *; lia).
        unfold rep, BUF_LIM, b_size in *. cbn in *. rewrite Z2. repeat split; try lia.
        intros i Hi. rewrite zget_splice by lia. rewrite Z1.
        destruct (Z.leb_spec 0 i), (Z.ltb_spec i (0 + b_avail b)); try lia. cbn [andb].
        rewrite zget_slice by lia.
        destruct (Z.leb_spec 0 (i - 0)), (Z.ltb_spec (i - 0) (b_avail b)); try lia. cbn [andb].
        rewrite R7 by lia. f_equal. f_equal. lia. }
  rewrite E1. clear e1 E1.
  assert (Rb1' := Rb1). destruct Rb1' as (Q1 & Q2 & Q3 & Q4 & Q5 & Q6 & Q7).
  destruct (Z.leb_spec needed (b_size b - b_avail b)) as [L1|L1].
  { exists b1, (b_size b - b_avail b). rewrite Ho1, Ha1, Hs1. unfold INT32_MAX. repeat split; try lia; assumption. }
  rewrite chk32_ok by (unfold INT32_MIN, INT32_MAX; lia). cbn [bind].
  destruct (Z.ltb_spec (needed - (b_size b - b_avail b)) (b_size b)) as [L2|L2].
  - rewrite !chk32_ok by (unfold INT32_MIN, INT32_MAX; lia). cbn [bind].
    destruct (setSize_ok b1 (2 * b_size b)) as (b2 & E2 & Ho2 & Ha2 & Hs2 & Hg); try lia.
    rewrite E2. cbn [bind]. exists b2, (b_size b - b_avail b + b_size b).
    split; [reflexivity|]. unfold rep, BUF_LIM, INT32_MAX in *. rewrite Ho2, Ha2, Hs2, Ha1, Ho1 in *.
    repeat split; try lia. intros i Hi. rewrite Hg by lia. apply Q7; lia.
  - rewrite !chk32_ok by (unfold INT32_MIN, INT32_MAX; lia). cbn [bind].
    destruct (setSize_ok b1 (b_size b + needed - (b_size b - b_avail b))) as (b2 & E2 & Ho2 & Ha2 & Hs2 & Hg); try lia.
    rewrite E2. cbn [bind]. exists b2, needed.
    split; [reflexivity|]. unfold rep, BUF_LIM, INT32_MAX in *. rewrite Ho2, Ha2, Hs2, Ha1, Ho1 in *.
    repeat split; try lia. intros i Hi. rewrite Hg by lia. apply Q7; lia.
Qed.

Lemma buf_write_ok b pos d : rep b pos -> b_off b + b_avail b + zlen d <= b_size b ->
  exists b', buf_write b d = Ret b' /\ rep b' pos /\ b_off b' = b_off b /\ b_avail b' = b_avail b /\ b_size b' = b_size b /\
  forall i, b_mem b' = splice (b_mem b) (b_off b + b_avail b) (map Some d) -> 0 <= i < zlen d ->
    zget (b_mem b') (b_off b + b_avail b + i) = Some (zget d i).
Proof.
  intros (R1 & R2 & R3 & R4 & R5 & R6 & R7) H. unfold buf_write.
  replace (_ && _) with true by (symmetry; rewrite !andb_true_iff, !Z.leb_le; lia).
  assert (zlen (map Some d) = zlen d) as Zm by apply zlen_map.
  eexists; split; [reflexivity|]. unfold rep, b_size in *. cbn [b_mem b_off b_avail] in *.
  rewrite zlen_splice by lia. repeat split; try lia.
  - intros i Hi. rewrite zget_splice by lia. rewrite Zm.
    destruct (Z.leb_spec (b_off b + b_avail b) i); [lia|]. cbn [andb]. apply R7; lia.
  - intros i _ Hi. rewrite zget_splice by lia. rewrite Zm.
    destruct (Z.leb_spec (b_off b + b_avail b) (b_off b + b_avail b + i)), (Z.ltb_spec (b_off b + b_avail b + i) (b_off b + b_avail b + zlen d)); try lia.
    cbn [andb]. rewrite zget_map.
    replace (b_off b + b_avail b + i - (b_off b + b_avail b)) with i by lia.
    destruct (zget_some d i Hi) as [x Ex]. rewrite Ex. reflexivity.
Qed.

Lemma buf_write_mem (b : buf A) d b' : buf_write b d = Ret b' -> b_mem b' = splice (b_mem b) (b_off b + b_avail b) (map Some d).
Proof. unfold buf_write. destruct (_ && _); [|discriminate]. intros E; injection E as <-. reflexivity. Qed.

Lemma rep_extend b pos n : rep b pos -> 0 <= n -> b_off b + b_avail b + n <= b_size b ->
  pos + b_avail b + n <= zlen content ->
  (forall i, 0 <= i < n -> zget (b_mem b) (b_off b + b_avail b + i) = Some (zget content (pos + b_avail b + i))) ->
  rep (mkBuf (b_mem b) (b_off b) (b_avail b + n)) pos.
Proof.
  intros (R1 & R2 & R3 & R4 & R5 & R6 & R7) Hn Hs Hc Hd. unfold rep, b_size in *. cbn [b_mem b_off b_avail] in *.
  repeat split; try lia. intros i Hi.
  destruct (Z.lt_ge_cases i (b_off b + b_avail b)) as [L|L]; [apply R7; lia|].
  specialize (Hd (i - b_off b - b_avail b) ltac:(lia)).
  replace (b_off b + b_avail b + (i - b_off b - b_avail b)) with i in Hd by lia. rewrite Hd. f_equal. f_equal; lia.
Qed.

Lemma buf_read_ok b pos max : rep b pos ->
  exists b' n, buf_read b max = Ret (b', n, slice content pos n) /\ rep b' (pos + n) /\
    b_mem b' = b_mem b /\ b_off b' = b_off b + n /\ b_avail b' = b_avail b - n /\ 0 <= n <= b_avail b /\
    (0 < max -> n = Z.min max (b_avail b)) /\ (max <= 0 -> n = b_avail b).
Proof.
  intros R. assert (R' := R). destruct R' as (R1 & R2 & R3 & R4 & R5 & R6 & R7). unfold buf_read.
  replace (negb _) with false.
  2:{ symmetry. apply negb_false_iff. rewrite !andb_true_iff, !Z.leb_le. unfold b_size, zlen in *. lia. }
  match goal with |- context [slice _ _ ?e] => set (n := e) end.
  assert (0 <= n <= b_avail b /\ (0 < max -> n = Z.min max (b_avail b)) /\ (max <= 0 -> n = b_avail b)) as Hn.
  { unfold n. destruct (Z.leb_spec max 0), (Z.ltb_spec (b_avail b) max); cbn [orb]; lia. }
  clearbody n.
  assert (slice (b_mem b) (b_off b) n = map Some (slice content pos n)) as E.
  { apply zget_ext. intros i. rewrite zget_map, !zget_slice by lia.
    destruct (Z.leb_spec 0 i), (Z.ltb_spec i n); cbn [andb option_map]; try reflexivity.
    rewrite R7 by lia. replace (pos - b_off b + (b_off b + i)) with (pos + i) by lia.
    destruct (zget_some content (pos + i)) as [x Ex]; [lia|]. rewrite Ex. reflexivity. }
  rewrite E, all_some_map. do 2 eexists. split; [reflexivity|]. cbn. split; [|repeat split; try lia].
  unfold rep, b_size in *. cbn [b_mem b_off b_avail]. repeat split; try lia. intros i Hi. rewrite R7 by lia. f_equal. f_equal; lia.
Qed.
End B.

Section P.
Context {S A : Type}.
Variables (src : source S A) (content : list A) (fails : Prop) (SR : S -> Z -> Prop) (SE : S -> Prop).
Hypothesis Hsrc : SrcOK src content fails SR SE.

Lemma dies_loop : forall k f b s ntoread maxread nwritten pos, rep content b pos -> dies src k s -> (k + 1 <= f)%nat ->
  0 < ntoread - b_avail b -> ntoread <= BUF_LIM -> maxread <= 0 \/ ntoread <= maxread -> 0 <= nwritten ->
  exists b' s' nw, wtb_loop src f b s Error ntoread maxread (ntoread - b_avail b) nwritten = Ret (b', s', Error, nw).
Proof.
  induction k as [|k IH]; intros f b s ntoread maxread nwritten pos HR HD Hf Hms Hlim Hmr Hnw; (destruct f as [|f]; [lia|]); cbn [wtb_loop].
  all: remember (ntoread - b_avail b) as ms eqn:Ems; (destruct (Z.ltb_spec 0 ms); [|lia]); (destruct (Z.leb_spec 0 nwritten); [|lia]); cbn [andb].
  all: (destruct (makeSpace_ok content b pos ms HR) as (b1 & space & E1 & HR1 & Ha1 & Hsp & Hfit & Hmx & _); [lia|lia|]); rewrite E1; cbn [bind].
  all: set (sp := if _ && _ then maxread else space).
  all: assert (1 <= sp <= INT32_MAX) as Hsp' by (destruct HR as (_ & ? & _); unfold sp in *; destruct (Z.leb_spec ntoread maxread), (Z.ltb_spec maxread space); cbn [andb]; lia).
  all: clearbody sp; destruct (HD sp Hsp') as (s2 & mm & e & En & Hmm); rewrite En; cbn [bind].
  all: (destruct (buf_write_ok content b1 pos [] HR1) as (b2 & E2 & HR2 & _ & Ha2 & _); [change (zlen (@nil A)) with 0; lia|]); rewrite E2; cbn [bind].
  all: (destruct (Z.ltb_spec 0 mm); [lia|]); replace (if e then Error else Error) with Error by (destruct e; reflexivity).
  all: destruct Hmm as [Hmm|[-> Hmm]].
  2: contradiction.
  1,2: assert (wtb_loop src f b2 s2 Error ntoread maxread ms mm = Ret (b2, s2, Error, mm)) as -> by (destruct f; cbn [wtb_loop]; destruct (Z.leb_spec 0 mm); try lia; rewrite andb_false_r; reflexivity); eauto.
  assert (ms = ntoread - b_avail b2) as -> by lia.
  eapply IH; [exact HR2|exact Hmm|lia|lia|lia|exact Hmr|lia].
Qed.
Lemma wtb_loop_ok fuel : forall b s st ntoread maxread missing nwritten pos,
  rep content b pos -> SR s (pos + b_avail b) -> st = Ok ->
  missing = ntoread - b_avail b -> ntoread <= BUF_LIM -> (0 <= nwritten \/ missing <= 0) ->
  maxread <= 0 \/ ntoread <= maxread -> 
  (Z.to_nat missing + mu src s <= fuel)%nat ->
  exists b' s' st' nw, wtb_loop src fuel b s st ntoread maxread missing nwritten = Ret (b', s', st', nw) /\
    ((st' = Error /\ fails) \/
     (st' = Ok /\ rep content b' pos /\ b_avail b <= b_avail b' /\
      ((0 <= nw \/ missing <= 0) /\ SR s' (pos + b_avail b') /\ ntoread <= b_avail b' \/
       nw < 0 /\ 0 < missing /\ SE s' /\ pos + b_avail b' = zlen content) /\
      (ntoread = 1 -> b_size b <= 1 -> b_size b' <= 1))).
Proof.
  induction fuel as [|f IH]; intros b s st ntoread maxread missing nwritten pos HR HS Hst Hm Hlim Hnw Hmr Hf.
  - cbn [wtb_loop]. destruct (Z.ltb_spec 0 missing) as [L|L]; cbn [andb].
    + exfalso. lia.
    + do 4 eexists; split; [reflexivity|]. right. split; [assumption|]. split; [assumption|].
      split; [lia|]. split; [|tauto]. left. split; [lia|]. split; [exact HS|lia].
  - cbn [wtb_loop]. destruct (Z.ltb_spec 0 missing) as [L|L]; cbn [andb].
    2:{ do 4 eexists; split; [reflexivity|]. right. split; [assumption|]. split; [assumption|].
        split; [lia|]. split; [|tauto]. left. split; [lia|]. split; [exact HS|lia]. }
    destruct (Z.leb_spec 0 nwritten); [|lia].
    destruct (makeSpace_ok content b pos missing HR) as (b1 & space & E1 & HR1 & Ha1 & Hsp & Hfit & Hmx & _ & Hgrow); try lia.
    rewrite E1; cbn [bind].
    set (sp := if _ && _ then maxread else space).
    assert (1 <= sp <= INT32_MAX /\ sp <= space /\ (missing <= sp)) as Hsp'.
    { destruct HR as (_ & ? & _). unfold sp. destruct (Z.leb_spec ntoread maxread), (Z.ltb_spec maxread space); cbn [andb]; lia. }
    clearbody sp.
    destruct (Hsrc s (pos + b_avail b) sp HS) as (s' & n & d & err & Ef & Hd & Hcase); [lia|].
    rewrite Ef; cbn [bind].
    destruct (buf_write_ok content b1 pos d HR1) as (b2 & E2 & HR2 & Ho2 & Ha2 & Hs2 & Hg2); [lia|].
    rewrite E2; cbn [bind].
    destruct Hcase as [(He & Hn & Hdd & Hc & HS' & Hmu)|[(He & Hn & HS' & Hmu)|[(He & Hn & Hc & HE)|(He & Hfl & [Hn|[(Hn & Hdd & Hc & Hnext)|(Hn & Hdd & Hc & k & Hk & Hdie)]])]]]; subst err.
    + destruct (Z.ltb_spec 0 n); [|lia]. cbn [b_avail].
      assert (zlen d = n) as Zd. { rewrite Hdd. destruct HR as (? & ? & _ & _ & ? & _). apply zlen_slice; lia. }
      destruct (IH (mkBuf (b_mem b2) (b_off b2) (b_avail b2 + n)) s' st ntoread maxread (ntoread - (b_avail b2 + n)) n pos)
        as (b' & s'' & st' & nw & E & Hres).
      * apply rep_extend; try assumption; try lia.
        intros i Hi. rewrite Ho2, Ha2, Hg2; [|apply buf_write_mem; exact E2|lia].
           rewrite Hdd, zget_slice by (destruct HR as (? & ? & _ & _ & ? & _); lia).
           destruct (Z.leb_spec 0 i), (Z.ltb_spec i n); try lia. cbn [andb]. rewrite Ha1. reflexivity.
      * cbn [b_avail]. rewrite Ha2, Ha1, Z.add_assoc. exact HS'.
      * exact Hst.
      * reflexivity.
      * exact Hlim.
      * left; lia.
      * exact Hmr.
      * rewrite Ha2, Ha1. lia.
      * exists b', s'', st', nw. split; [exact E|].
        destruct Hres as [Hres|(Q1 & Q2 & Q3 & Q4 & Q5)]; [left; exact Hres|right].
        cbn [b_avail] in *. split; [exact Q1|]. split; [exact Q2|]. split; [lia|].
        split; [|intros; apply Q5; [assumption|]; unfold b_size at 1; cbn [b_mem]; fold (b_size b2); destruct HR as (_ & ? & _); lia].
        destruct Q4 as [(Qa & Qb & Qc)|(Qa & Qb & Qc)].
        -- left. repeat split; try assumption.
           destruct (Z.lt_ge_cases nw 0); [|left; lia]. 
           (* nw<0 impossible unless loop ended at once: then nw = n > 0 *)
           destruct Qa as [Qa|Qa]; [left; exact Qa|].
           exfalso. destruct f; cbn [wtb_loop] in E; destruct (Z.ltb_spec 0 (ntoread - (b_avail b2 + n))); try lia; cbn [andb] in E; injection E as _ _ _ E; lia.
        -- right. repeat split; try assumption; try lia; tauto.
    + subst n. cbn [Z.ltb Z.compare].
      destruct (IH b2 s' st ntoread maxread missing 0 pos) as (b' & s'' & st' & nw & E & Hres); try assumption; try lia.
      { rewrite Ha2, Ha1. exact HS'. }
      exists b', s'', st', nw. split; [exact E|].
      destruct Hres as [Hres|(Q1 & Q2 & Q3 & Q4 & Q5)]; [left; exact Hres|right].
      split; [exact Q1|]. split; [exact Q2|]. split; [lia|]. split; [exact Q4|]. intros; apply Q5; [assumption|]. destruct HR as (_ & ? & _); lia.
    + destruct (Z.ltb_spec 0 n); [lia|].
      assert (wtb_loop src f b2 s' st ntoread maxread missing n = Ret (b2, s', st, n)) as E.
      { destruct f; cbn [wtb_loop]; destruct (Z.leb_spec 0 n); try lia; rewrite andb_false_r; reflexivity. }
      rewrite E. do 4 eexists; split; [reflexivity|]. right. split; [assumption|]. split; [assumption|].
      split; [lia|]. split; [right; rewrite Ha2, Ha1; repeat split; try lia; assumption|]. intros; destruct HR as (_ & ? & _); lia.
    + destruct (Z.ltb_spec 0 n); [lia|].
      assert (wtb_loop src f b2 s' Error ntoread maxread missing n = Ret (b2, s', Error, n)) as E.
      { destruct f; cbn [wtb_loop]; destruct (Z.leb_spec 0 n); try lia; rewrite andb_false_r; reflexivity. }
      rewrite E. do 4 eexists; split; [reflexivity|]. left. split; [reflexivity|assumption].
    + destruct (Z.ltb_spec 0 n); [|lia]. cbn [b_avail].
      assert (zlen d = n) as Zd. { rewrite Hdd. destruct HR as (? & ? & _ & _ & ? & _). apply zlen_slice; lia. }
      set (b3 := mkBuf (b_mem b2) (b_off b2) (b_avail b2 + n)).
      assert (rep content b3 pos) as HR3.
      { apply rep_extend; try assumption; try lia.
        intros i Hi. rewrite Ho2, Ha2, Hg2; [|apply buf_write_mem; exact E2|lia].
           rewrite Hdd, zget_slice by (destruct HR as (? & ? & _ & _ & ? & _); lia).
           destruct (Z.leb_spec 0 i), (Z.ltb_spec i n); try lia. cbn [andb]. rewrite Ha1. reflexivity. }
      set (ms := ntoread - (b_avail b2 + n)).
      destruct (Z.lt_ge_cases 0 ms) as [Lm|Lm].
      2:{ assert (wtb_loop src f b3 s' Error ntoread maxread ms n = Ret (b3, s', Error, n)) as E.
          { destruct f; cbn [wtb_loop]; destruct (Z.ltb_spec 0 ms); try lia; cbn [andb]; reflexivity. }
          rewrite E. do 4 eexists; split; [reflexivity|]. left. split; [reflexivity|assumption]. }
      destruct f as [|f']; [unfold ms in *; lia|]. cbn [wtb_loop].
      destruct (Z.ltb_spec 0 ms); [|lia]. destruct (Z.leb_spec 0 n); [|lia]. cbn [andb].
      assert (b_avail b3 = b_avail b2 + n) as Hb3 by reflexivity.
      destruct (makeSpace_ok content b3 pos ms HR3) as (b4 & space4 & E4 & HR4 & Ha4 & Hsp4 & Hfit4 & Hmx4 & _); [lia|unfold ms; lia|].
      rewrite E4; cbn [bind].
      set (sp4 := if _ && _ then maxread else space4).
      assert (1 <= sp4 <= INT32_MAX) as Hsp4'.
      { destruct HR2 as (_ & ? & _). unfold ms in *. unfold sp4. destruct (Z.leb_spec ntoread maxread), (Z.ltb_spec maxread space4); cbn [andb]; lia. }
      clearbody sp4. destruct (Hnext sp4 Hsp4') as (s2 & mm & e & En & Hmm). rewrite En; cbn [bind].
      destruct (buf_write_ok content b4 pos [] HR4) as (b5 & E5 & _); [change (zlen (@nil A)) with 0; lia|]. rewrite E5; cbn [bind].
      destruct (Z.ltb_spec 0 mm); [lia|].
      replace (if e then Error else Error) with Error by (destruct e; reflexivity).
      assert (wtb_loop src f' b5 s2 Error ntoread maxread ms mm = Ret (b5, s2, Error, mm)) as E.
      { destruct f'; cbn [wtb_loop]; destruct (Z.leb_spec 0 mm); try lia; rewrite andb_false_r; reflexivity. }
      rewrite E. do 4 eexists; split; [reflexivity|]. left. split; [reflexivity|assumption].
    + assert (zlen d = n) as Zd. { rewrite Hdd. destruct HR as (? & ? & _ & _ & ? & _). apply zlen_slice; lia. }
      set (b3 := if 0 <? n then mkBuf (b_mem b2) (b_off b2) (b_avail b2 + n) else b2).
      assert (rep content b3 pos /\ b_avail b3 = b_avail b2 + n) as (HR3 & Ha3).
      { unfold b3. destruct (Z.ltb_spec 0 n); [|split; [exact HR2|lia]]. split; [|reflexivity]. apply rep_extend; try assumption; try lia.
        intros i Hi. rewrite Ho2, Ha2, Hg2; [|apply buf_write_mem; exact E2|lia].
           rewrite Hdd, zget_slice by (destruct HR as (? & ? & _ & _ & ? & _); lia).
           destruct (Z.leb_spec 0 i), (Z.ltb_spec i n); try lia. cbn [andb]. rewrite Ha1. reflexivity. }
      set (ms := if 0 <? n then ntoread - b_avail b3 else missing).
      assert (ms = ntoread - b_avail b3) as Hms by (unfold ms; destruct (Z.ltb_spec 0 n); lia).
      clearbody ms b3. subst ms.
      destruct (Z.lt_ge_cases 0 (ntoread - b_avail b3)) as [Lm|Lm].
      2:{ assert (wtb_loop src f b3 s' Error ntoread maxread (ntoread - b_avail b3) n = Ret (b3, s', Error, n)) as E.
          { destruct f; cbn [wtb_loop]; destruct (Z.ltb_spec 0 (ntoread - b_avail b3)); try lia; cbn [andb]; reflexivity. }
          rewrite E. do 4 eexists; split; [reflexivity|]. left. split; [reflexivity|assumption]. }
      destruct (dies_loop k f b3 s' ntoread maxread n pos HR3 Hdie ltac:(lia) Lm Hlim Hmr Hn) as (b' & s2 & nw & E).
      rewrite E. do 4 eexists; split; [reflexivity|]. left. split; [reflexivity|assumption].
Qed.

(** representation relation of a buffered stream *)
Definition bs_core (x : bstream S A) (pos : Z) : Prop :=
  rep content (bs_buf x) pos /\ bs_pos x = pos /\ bs_st x <> Error /\
  (bs_fin x = false -> SR (bs_src x) (pos + b_avail (bs_buf x))) /\
  (bs_fin x = true -> SE (bs_src x) /\ pos + b_avail (bs_buf x) = zlen content) /\
  (bs_st x = Eof -> pos = zlen content) /\
  (fails \/ bs_size x = -1 \/ bs_size x = zlen content).
Definition bs_R (x : bstream S A) (v : view) : Prop :=
  view_ok content v /\ bs_core x (v_pos v) /\
  v_pos v - b_off (bs_buf x) <= v_lo v /\ v_hi v <= v_pos v + b_avail (bs_buf x).

Lemma bs_read_core x pos mn mx : bs_core x pos -> 1 <= mn <= BUF_LIM ->
  exists x' n d, bs_read src x mn mx = Ret (x', n, d) /\
   ((bs_st x' = Error /\ fails /\ n = -2) \/
    (0 < n /\ bs_core x' (pos + n) /\ d = slice content pos n /\ pos + n <= zlen content /\
       (mn <= mx -> n <= mx) /\ (mn <= n \/ pos + n = zlen content) /\ n <= b_off (bs_buf x') /\
       (mn = 1 -> b_size (bs_buf x) <= 1 -> n <= 1) /\
       (bs_size x = -1 -> bs_st x' = Eof -> bs_size x' = pos + n) /\
       (bs_size x = -1 -> bs_st x' = Ok -> bs_size x' = -1)) \/
    (n = -1 /\ d = [] /\ bs_core x' pos /\ pos = zlen content /\ bs_st x' = Eof /\
       (bs_st x = Ok -> bs_size x = -1 -> bs_size x' = pos) /\ (bs_st x = Eof -> x' = x))).
Proof.
  intros (HR & Hp & Hst & HS & HE & Hf & Hsz) Hmn.
  unfold bs_read. destruct (bs_st x) eqn:Est; [| |congruence].
  2:{ exists x, (-1), []. split; [reflexivity|]. right; right. rewrite (Hf eq_refl) in *.
      split; [reflexivity|]. split; [reflexivity|]. split.
      - unfold bs_core. rewrite Est. split; [exact HR|]. split; [exact Hp|]. split; [exact Hst|]. split; [exact HS|]. split; [exact HE|]. split; [reflexivity|exact Hsz].
      - repeat split; try assumption; try congruence. }
  set (mx' := if mx <? mn then 0 else mx).
  assert (Hmx : (mx' = 0 /\ mx < mn) \/ (mx' = mx /\ mn <= mx)) by (unfold mx'; destruct (Z.ltb_spec mx mn); lia).
  clearbody mx'.
  match goal with |- context [if ?c then writeToBuffer src x mn mx' else Ret x] => set (e := if c then writeToBuffer src x mn mx' else Ret x) end.
  assert (exists x1, e = Ret x1 /\ bs_pos x1 = pos /\ bs_size x1 = bs_size x /\
     ((bs_st x1 = Error /\ fails) \/
      (bs_st x1 = Ok /\ rep content (bs_buf x1) pos /\
       (bs_fin x1 = false -> SR (bs_src x1) (pos + b_avail (bs_buf x1)) /\ mn <= b_avail (bs_buf x1)) /\
       (bs_fin x1 = true -> SE (bs_src x1) /\ pos + b_avail (bs_buf x1) = zlen content) /\
       (mn = 1 -> b_size (bs_buf x) <= 1 -> b_size (bs_buf x1) <= 1)))) as (x1 & Ee & Hp1 & Hz1 & Hx1).
  { unfold e. destruct (bs_fin x) eqn:Efin; cbn [negb andb].
    - exists x. split; [reflexivity|]. split; [exact Hp|]. split; [reflexivity|]. right.
      rewrite Est, Efin. split; [reflexivity|]. split; [exact HR|]. split; [congruence|]. split; [intros _; apply HE; reflexivity|tauto].
    - destruct (Z.ltb_spec (b_avail (bs_buf x)) mn) as [L|L].
      + unfold writeToBuffer.
        destruct (wtb_loop_ok (Z.to_nat (mn - b_avail (bs_buf x)) + mu src (bs_src x)) (bs_buf x) (bs_src x) (bs_st x) mn mx'
           (mn - b_avail (bs_buf x)) 0 pos) as (b' & s' & st' & nw & E & Hres); try lia; try assumption.
        { apply HS; reflexivity. }
        rewrite E; cbn [bind]. eexists; split; [reflexivity|]. cbn [bs_pos bs_size bs_st bs_buf bs_fin bs_src].
        split; [exact Hp|]. split; [reflexivity|].
        destruct Hres as [Hres|(Q1 & Q2 & Q3 & Q4 & Q5)]; [left; exact Hres|right].
        split; [exact Q1|]. split; [exact Q2|].
        destruct Q4 as [(Qa & Qb & Qc)|(Qa & Qb & Qc & Qd)].
        * destruct (Z.ltb_spec nw 0) as [Ln|Ln].
          -- lia.
          -- rewrite Efin. split; [intros _; split; assumption|]. split; [congruence|exact Q5].
        * destruct (Z.ltb_spec nw 0); [|lia]. split; [congruence|]. split; [intros _; split; assumption|exact Q5].
      + exists x. split; [reflexivity|]. split; [exact Hp|]. split; [reflexivity|]. right.
        rewrite Est, Efin. split; [reflexivity|]. split; [exact HR|].
        split; [intros _; split; [apply HS; reflexivity|lia]|]. split; [congruence|tauto]. }
  rewrite Ee; cbn [bind].
  destruct Hx1 as [[He1 He2]|(Hst1 & HR1 & HS1 & HE1 & Hsmall)].
  { rewrite He1; cbn [is_error]. exists x1, (-2), []. split; [reflexivity|]. left; tauto. }
  rewrite Hst1; cbn [is_error].
  destruct (buf_read_ok content (bs_buf x1) pos mx' HR1) as (b & n & Er & HRb & Hm & Ho & Ha & Hn & Hn1 & Hn2).
  rewrite Er; cbn [bind]. rewrite Hp1, Hz1.
  destruct ((bs_size x <? pos + n) && (0 <? bs_size x)) eqn:Elong.
  { apply andb_true_iff in Elong. rewrite !Z.ltb_lt in Elong.
    do 3 eexists; split; [reflexivity|]. left. cbn [bs_st]. repeat split.
    destruct HR1 as (_ & _ & _ & _ & _ & Hc & _).
    destruct Hsz as [Hsz|[Hsz|Hsz]]; [exact Hsz|lia|]. exfalso. lia. }
  cbn [andb].
  assert (Hposn : pos + n <= zlen content) by (destruct HR1 as (_ & _ & _ & _ & _ & Hc & _); lia).
  assert (Hof : n <= b_off b) by (destruct HR1 as (Hc & _); lia).
  assert (Hone : mn = 1 -> b_size (bs_buf x) <= 1 -> n <= 1).
  { intros Q1 Q2. specialize (Hsmall Q1 Q2). destruct HR1 as (? & ? & ? & _). lia. }
  assert (Ha' : pos + n + b_avail b = pos + b_avail (bs_buf x1)) by lia.
  destruct ((b_avail b =? 0) && bs_fin x1) eqn:Eend.
  - apply andb_true_iff in Eend. destruct Eend as [Ea Efin]. rewrite Z.eqb_eq in Ea.
    destruct (HE1 Efin) as [HSE Hend].
    do 3 eexists; split; [reflexivity|]. right.
    assert (Hz : fails \/ (if bs_size x =? -1 then pos + n else bs_size x) = -1 \/
                 (if bs_size x =? -1 then pos + n else bs_size x) = zlen content).
    { destruct (Z.eqb_spec (bs_size x) (-1)); [right; right; lia|]. destruct Hsz as [Q|[Q|Q]]; [left; exact Q|lia|right; right; exact Q]. }
    assert (Hcore : bs_core (mkBS b (bs_fin x1) (bs_src x1) (if bs_size x =? -1 then pos + n else bs_size x) (pos + n) Eof) (pos + n)).
    { unfold bs_core; cbn [bs_buf bs_pos bs_st bs_fin bs_src bs_size]. split; [exact HRb|]. split; [reflexivity|].
      split; [congruence|]. split; [intros; congruence|]. split; [intros _; split; [exact HSE|lia]|].
      split; [intros _; lia|exact Hz]. }
    destruct (Z.eqb_spec n 0) as [En|En].
    + right. subst n. rewrite Z.add_0_r in *. split; [reflexivity|]. split; [reflexivity|]. split; [exact Hcore|].
      split; [lia|]. split; [reflexivity|]. split; [|congruence].
      intros _ Hs; cbn [bs_size]; rewrite Hs; reflexivity.
    + left. split; [lia|]. split; [exact Hcore|]. split; [reflexivity|]. split; [lia|].
      split; [intros; destruct Hmx; lia|]. split; [right; lia|]. split; [exact Hof|].
      split; [exact Hone|].
      split; [intros Hs _; cbn [bs_size]; rewrite Hs; reflexivity|]. cbn [bs_st]; congruence.
  - do 3 eexists; split; [reflexivity|]. right; left.
    assert (Hfin : bs_fin x1 = true -> b_avail b <> 0).
    { intros F. rewrite F, andb_true_r in Eend. apply Z.eqb_neq; exact Eend. }
    assert (Hn0 : 0 < n /\ (mn <= n \/ pos + n = zlen content)).
    { destruct (bs_fin x1) eqn:Ef1.
      - specialize (Hfin eq_refl). destruct (HE1 eq_refl) as [_ Hend]. destruct HRb as (_ & ? & _).
        destruct Hmx as [[-> ?]|[-> ?]]; [|lia]. specialize (Hn2 ltac:(lia)). lia.
      - destruct (HS1 eq_refl) as [_ Hge]. destruct Hmx as [[-> ?]|[-> ?]]; [|lia]. specialize (Hn2 ltac:(lia)). lia. }
    split; [lia|]. split.
    { unfold bs_core; cbn [bs_buf bs_pos bs_st bs_fin bs_src bs_size]. split; [exact HRb|]. split; [reflexivity|].
      split; [congruence|]. split; [intros F; rewrite Ha'; apply HS1; exact F|].
      split; [intros F; rewrite Ha'; apply HE1; exact F|]. split; [congruence|exact Hsz]. }
    split; [reflexivity|]. split; [lia|]. split; [intros; destruct Hmx; lia|]. split; [lia|]. split; [exact Hof|]. split; [exact Hone|].
    cbn [bs_st bs_size]. split; [congruence|tauto].
Qed.

Lemma bs_skip_core : forall fuel x pos n sk, bs_core x pos -> 0 <= n <= INT32_MAX -> 0 <= sk -> (Z.to_nat n <= fuel)%nat ->
  exists x' k, bs_skip_loop src fuel x n sk = Ret (x', sk + k) /\ 0 <= k <= n /\
   ((bs_st x' = Error /\ fails) \/
    (bs_core x' (pos + k) /\ pos + k <= zlen content /\ (k = n \/ pos + k = zlen content))).
Proof.
  induction fuel as [|f IH]; intros x pos n sk HC Hn Hsk Hf.
  - assert (n = 0) as -> by lia. cbn. exists x, 0. rewrite Z.add_0_r. split; [reflexivity|]. split; [lia|].
    right. rewrite Z.add_0_r. destruct HC as (HR & HC). assert (HR' := HR). destruct HR' as (_ & ? & _ & _ & _ & ? & _).
    split; [split; assumption|lia].
  - cbn [bs_skip_loop]. destruct (Z.eqb_spec n 0) as [->|Hn0].
    { exists x, 0. rewrite Z.add_0_r. split; [reflexivity|]. split; [lia|].
      right. rewrite Z.add_0_r. destruct HC as (HR & HC). assert (HR' := HR). destruct HR' as (_ & ? & _ & _ & _ & ? & _).
      split; [split; assumption|lia]. }
    set (step := wrap32 _).
    assert (Hbs : 0 <= b_size (bs_buf x) <= INT32_MAX).
    { unfold b_size, INT32_MAX. pose proof (zlen_nonneg (b_mem (bs_buf x))). destruct HC as ((_ & _ & _ & HH & _) & _). unfold BUF_LIM, b_size in HH. lia. }
    assert (0 <= step <= n /\ (step = 0 -> b_size (bs_buf x) = 0)) as Hstep.
    { unfold step. destruct (Z.ltb_spec (b_size (bs_buf x)) n); rewrite wrap32_id by (unfold INT32_MIN; lia); lia. }
    clearbody step.
    destruct (bs_read_core x pos 1 step HC) as (x1 & m & d & E & Hres); [unfold BUF_LIM; lia|].
    rewrite E; cbn [bind].
    destruct Hres as [(Q1 & Q2 & Q3)|[(Q1 & Q2 & Q3 & Q4 & Q5 & Q6 & Q7 & Q8 & _)|(Q1 & Q2 & Q3 & Q4 & Q5 & _)]].
    + subst m. cbn. exists x1, 0. rewrite Z.add_0_r. split; [reflexivity|]. split; [lia|]. left; tauto.
    + destruct (Z.leb_spec m 0); [lia|].
      assert (m <= n).
      { destruct (Z.eq_dec step 0) as [E0|E0]; [|lia]. destruct Hstep as [_ Hs0]. specialize (Hs0 E0). specialize (Q8 eq_refl ltac:(lia)). lia. }
      destruct (IH x1 (pos + m) (n - m) (sk + m) Q2) as (x' & k & E' & Hk & Hres); try lia.
      exists x', (m + k). rewrite E'. split; [f_equal; f_equal; lia|]. split; [lia|].
      rewrite Z.add_assoc.
      destruct Hres as [Hres|(S1 & S2 & S3)]; [left; exact Hres|right]. split; [exact S1|lia].
    + subst m. cbn. exists x1, 0. rewrite Z.add_0_r. split; [reflexivity|]. split; [lia|]. right. rewrite Z.add_0_r.
      split; [exact Q3|lia].
Qed.

Lemma bs_core_view x pos : bs_core x pos -> view_ok content (mkView pos pos pos).
Proof. intros ((?&?&?&?&?&?&_)&_). unfold view_ok; cbn. lia. Qed.
Lemma bs_core_R x pos : bs_core x pos -> bs_R x (mkView pos pos pos).
Proof. intros HC. split; [eapply bs_core_view; eassumption|]. split; [exact HC|].
  destruct HC as ((?&?&?&?&?&?&_)&_). cbn. lia. Qed.

Lemma bs_sim : sim (bs_ops src) content fails BUF_LIM bs_R.
Proof.
  split.
  - intros x v H; apply H.
  - intros x v (_ & (_ & H & _) & _); exact H.
  - intros x v c HR Hc. destruct HR as (Hv & HC & Hlo & Hhi). destruct c as [mn mx|n|p]; cbn [call_ok] in Hc.
    + destruct (bs_read_core x (v_pos v) mn mx HC) as (x' & n & d & E & Hres); [lia|].
      unfold step_sim. cbn [exec bs_ops o_read]. rewrite E; cbn [bind]. do 2 eexists; split; [reflexivity|].
      destruct Hres as [(Q1 & Q2 & Q3)|[(Q1 & Q2 & Q3 & Q4 & Q5 & Q6 & Q7 & _)|(Q1 & Q2 & Q3 & Q4 & Q5 & _)]].
      * right. unfold bad_obs; cbn. tauto.
      * left. assert (Q2' := Q2). destruct Q2' as (T1 & T2 & T3 & T4 & T5 & T6 & T7).
        unfold good_obs. cbn [observe ob_ret ob_data ob_st ob_pos ob_size o_pos o_size o_status bs_ops next_view].
        destruct (Z.ltb_spec 0 n); [|lia]. cbn [v_pos].
        split; [repeat split; try assumption; left; repeat split; try assumption; lia|].
        assert (T1' := T1). destruct T1' as (?&?&?&?&?&?&_).
        unfold view_ok in *. unfold bs_R, view_ok. cbn [v_pos v_lo v_hi]. split; [lia|]. split; [exact Q2|]. lia.
      * left. subst n d. assert (Q3' := Q3). destruct Q3' as (T1 & T2 & T3 & T4 & T5 & T6 & T7).
        unfold good_obs. cbn [observe ob_ret ob_data ob_st ob_pos ob_size o_pos o_size o_status bs_ops next_view Z.ltb Z.compare v_pos].
        split; [repeat split; try assumption; try lia; right; repeat split; assumption|].
        apply bs_core_R; exact Q3.
    + destruct (bs_skip_core (Z.to_nat n) x (v_pos v) n 0 HC) as (x' & k & E & Hk & Hres); try lia.
      unfold step_sim. cbn [exec bs_ops o_skip]. rewrite bs_skip_nonneg by lia. rewrite E; cbn [bind]. do 2 eexists; split; [reflexivity|].
      rewrite Z.add_0_l.
      destruct Hres as [(Q1 & Q2)|(Q1 & Q2 & Q3)].
      * right. unfold bad_obs; cbn. tauto.
      * left. assert (Q1' := Q1). destruct Q1' as (T1 & T2 & T3 & T4 & T5 & T6 & T7).
        unfold good_obs. cbn [observe ob_ret ob_data ob_st ob_pos ob_size o_pos o_size o_status bs_ops next_view v_pos].
        rewrite Z.max_r by lia. cbn [v_pos].
        split; [repeat split; try assumption; left; lia|]. apply bs_core_R; exact Q1.
    + unfold step_sim. cbn [exec bs_ops o_reset]. unfold bs_reset.
      destruct (Z.ltb_spec p 0); [lia|].
      assert (HC' := HC). destruct HC' as (T1 & T2 & T3 & T4 & T5 & T6 & T7).
      assert (T1' := T1). destruct T1' as (U1&U2&U3&U4&U5&U6&U7).
      rewrite T2.
      assert (forall (y : out (bstream S A * Z)), match bs_st x with Error => Ret (x, -2) | _ => y end = y) as EM
        by (intros; destruct (bs_st x); congruence).
      rewrite EM. clear EM.
      destruct (Z.leb_spec (v_pos v - p) (b_off (bs_buf x))); cbn [andb];
      [destruct (Z.leb_spec (- (v_pos v - p)) (b_avail (bs_buf x)))|]; cbn [bind]; do 2 eexists; (split; [reflexivity|]); left.
      * assert (bs_core (mkBS (mkBuf (b_mem (bs_buf x)) (b_off (bs_buf x) - (v_pos v - p))
            (b_avail (bs_buf x) + wrap32 (v_pos v - p))) (bs_fin x) (bs_src x) (bs_size x) (v_pos v - (v_pos v - p)) Ok) p) as HC2.
        { rewrite wrap32_id by (unfold INT32_MIN, INT32_MAX, BUF_LIM in *; lia).
          unfold bs_core. cbn [bs_buf bs_pos bs_st bs_fin bs_src bs_size].
          unfold rep. unfold b_size in *. cbn [b_mem b_off b_avail].
          replace (p + (b_avail (bs_buf x) + (v_pos v - p))) with (v_pos v + b_avail (bs_buf x)) by lia.
          split; [|split; [lia|split; [congruence|split; [exact T4|split; [exact T5|split; [congruence|exact T7]]]]]].
          repeat split; try lia. intros i Hi. rewrite U7 by lia. f_equal. f_equal; lia. }
        unfold good_obs. cbn [observe ob_ret ob_data ob_st ob_pos ob_size o_pos o_size o_status bs_ops next_view bs_pos bs_size bs_st].
        replace (v_pos v - (v_pos v - p)) with p in * by lia. unfold view_ok in *.
        split.
        -- split; [congruence|]. split; [congruence|].
           destruct (Z.leb_spec (v_lo v) p), (Z.leb_spec p (v_hi v)); cbn [andb v_pos]; repeat split; try assumption; lia.
        -- destruct (Z.leb_spec (v_lo v) p), (Z.leb_spec p (v_hi v)); cbn [andb v_pos]; try (apply bs_core_R; exact HC2).
           split; [unfold view_ok; cbn; lia|]. split; [exact HC2|]. cbn [v_pos v_lo v_hi bs_buf b_off b_avail].
           rewrite wrap32_id by (unfold INT32_MIN, INT32_MAX, BUF_LIM in *; lia). lia.
      * unfold view_ok in *.
        unfold good_obs. cbn [observe ob_ret ob_data ob_st ob_pos ob_size o_pos o_size o_status bs_ops next_view bs_pos bs_size bs_st].
        destruct (Z.leb_spec (v_lo v) p), (Z.leb_spec p (v_hi v)); try lia; cbn [andb v_pos].
        all: split; [repeat split; try assumption; lia|apply bs_core_R; exact HC].
      * unfold view_ok in *.
        unfold good_obs. cbn [observe ob_ret ob_data ob_st ob_pos ob_size o_pos o_size o_status bs_ops next_view bs_pos bs_size bs_st].
        destruct (Z.leb_spec (v_lo v) p), (Z.leb_spec p (v_hi v)); try lia; cbn [andb v_pos].
        all: split; [repeat split; try assumption; lia|apply bs_core_R; exact HC].
Qed.

(** the initial state (with any initial buffer size and announced size) *)
Definition bs_init_ok (x : bstream S A) : Prop :=
  b_off (bs_buf x) = 0 /\ b_avail (bs_buf x) = 0 /\ b_size (bs_buf x) <= 2 * BUF_LIM - 1 /\
  bs_fin x = false /\ SR (bs_src x) 0 /\ bs_pos x = 0 /\ bs_st x = Ok /\
  (fails \/ bs_size x = -1 \/ bs_size x = zlen content).
Lemma bs_init_R x : bs_init_ok x -> bs_R x view0.
Proof.
  intros (H1 & H2 & H3 & H4 & H5 & H6 & H7 & H8). apply (bs_core_R x 0).
  pose proof (zlen_nonneg content). pose proof (zlen_nonneg (b_mem (bs_buf x))).
  unfold bs_core, rep, b_size in *. rewrite H1, H2, H4, H7 in *. cbn.
  repeat split; try assumption; try congruence; try lia.
Qed.
Theorem bs_conforms x : bs_init_ok x -> Conforms (bs_ops src) content fails BUF_LIM x view0.
Proof. intros H. eapply sim_conforms; [exact bs_sim|apply bs_init_R; exact H]. Qed.
End P.
