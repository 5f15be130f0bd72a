From Verif Require Import Base StreamSpec P_Stream M_Sub M_Kmp KmpSpec P_Kmp SegSpec M_StringTerm.

Section ST.
Context {P : Type}.
Variables (par : ops P Z) (full : list Z) (lim : Z) (R : P -> view -> Prop).
Hypothesis HS : sim par full False lim R.
Variables (q : list Z) (key : searcher).
Hypothesis Hkey : k_ok key.
Hypothesis Hq : k_query key = q.
Hypothesis Hqb : bytes q.
Hypothesis Htail : short_or_unique_tail q.
Hypothesis Hfb : bytes full.
Hypothesis HL : zlen full <= INT32_MAX.
Variables (off len : Z) (fd : bool).
Hypothesis Hoff : 0 <= off.
Hypothesis Hlen : 0 <= len.
Hypothesis Hoffl : off + len <= zlen full.
(* occurrences are at absolute positions of [full] *)
Definition occ (d : Z) : Prop := 0 <= d /\ d + zlen q <= zlen full /\ slice full d (zlen q) = q.
Hypothesis Hfirst : forall d, off <= d < off + len -> ~ occ d.
Hypothesis Hfd : if fd then occ (off + len) /\ 0 < len else off + len = zlen full.
Hypothesis Htl : 0 < zlen q.
Hypothesis Hlim : 1 + zlen q <= lim.
Hypothesis Hqm : 1 + zlen q <= INT32_MAX.

Definition cont : list Z := slice full off len.
Lemma clen : zlen cont = len. Proof. unfold cont. apply zlen_slice; lia. Qed.

Definition tinv (s : sts P) (v : view) : Prop :=
  view_ok cont v /\ t_key s = key /\ t_off s = off /\ t_pos s = v_pos v /\
  (t_size s = -1 \/ t_size s = len) /\ t_far s <= off + len /\ (if fd then t_far s < off + len else True) /\ 0 <= t_far s /\
  (exists vp, R (t_in s) vp /\ v_lo vp <= off + v_lo v /\ off + v_hi v <= v_hi vp /\
    (t_st s = Ok -> v_pos vp = off + v_pos v)) /\
  (t_st s = Ok /\ (if fd then v_pos v < len else True) \/ t_st s = Eof /\ v_pos v = len /\ (fd = true -> t_size s = len)).
(** the parent is behind the terminator when the end was found *)
Definition behind (s : sts P) : Prop := t_st s = Eof -> fd = true -> o_pos par (t_in s) = off + len + zlen q.

Lemma occ_hay p n j : 0 <= p -> 0 <= n -> p + n <= zlen full ->
  (occurs_at q (slice full p n) j <-> 0 <= j /\ j + zlen q <= n /\ occ (p + j)).
Proof.
  intros Hp Hn Hpn. unfold occurs_at, occ. rewrite zlen_slice by lia. split.
  - intros (H1 & H2 & H3). rewrite slice_slice in H3 by lia. repeat split; try lia. exact H3.
  - intros (H1 & H2 & H3 & H4 & H5). repeat split; try lia. rewrite slice_slice by lia. exact H5.
Qed.
Lemma bytes_slice p n : bytes (slice full p n).
Proof.
  unfold bytes, slice in *. rewrite Forall_forall in *. intros x Hx. apply Hfb.
  rewrite <- (firstn_skipn (Z.to_nat p) full). apply in_or_app. right. rewrite <- (firstn_skipn (Z.to_nat n) (skipn _ full)). apply in_or_app. left. exact Hx.
Qed.
Lemma search_at p n : off <= p <= off + len -> 0 <= n -> p + n <= zlen full ->
  exists e, search key (slice full p n) = Ret e /\
    match e with
    | Some j => fd = true /\ j = off + len - p /\ j + zlen q <= n
    | None => fd = true -> p + n < off + len + zlen q
    end.
Proof.
  intros Hp Hn Hpn. destruct (search_ok True key (slice full p n) Hkey (bytes_slice p n)) as (r & E & Hr); [rewrite Hq; intros _; exact Htail|].
  exists r. split; [exact E|]. rewrite Hq in Hr. destruct r as [j|].
  - destruct Hr as (H1 & H2). specialize (H2 I). apply occ_hay in H1; [|lia..]. destruct H1 as (J1 & J2 & J3).
    assert (off + len <= p + j) as Hge.
    { destruct (Z.le_gt_cases (off + len) (p + j)); [assumption|]. exfalso. apply (Hfirst (p + j)); [lia|exact J3]. }
    destruct fd.
    + destruct Hfd as (F1 & F2). split; [reflexivity|]. 
      assert (j = off + len - p) as ->; [|lia]. destruct (Z.eq_dec j (off + len - p)) as [|Hne]; [assumption|]. exfalso.
      apply (H2 (off + len - p)); [lia|]. apply occ_hay; [lia..|]. split; [lia|]. split; [lia|]. replace (p + (off + len - p)) with (off + len) by lia. exact F1.
    + destruct J3 as (_ & J3 & _). lia.
  - intros Ef. rewrite Ef in Hfd. destruct Hfd as (F1 & F2). specialize (Hr I).
    destruct (Z.lt_ge_cases (p + n) (off + len + zlen q)); [assumption|]. exfalso. apply (Hr (off + len - p)). apply occ_hay; [lia..|].
    split; [lia|]. split; [lia|]. replace (p + (off + len - p)) with (off + len) by lia. exact F1.
Qed.

Lemma cont_slice p n : 0 <= p -> p + n <= len -> slice full (off + p) n = slice cont p n.
Proof. intros. unfold cont. rewrite slice_slice by lia. reflexivity. Qed.

Lemma st_read_ok s v mn mx : tinv s v -> 1 <= mn -> mn + zlen q <= lim -> mn + zlen q <= INT32_MAX -> (mn <= mx <= INT32_MAX \/ mx = 0) ->
  exists s' n d, st_read par s mn mx = Ret (s', n, d) /\
    good_obs cont False v (Read mn mx) (observe (st_ops par) s' n d) /\
    tinv s' (next_view v (Read mn mx) (observe (st_ops par) s' n d)) /\ (behind s -> behind s').
Proof.
  intros (Hv & Hk & Ho & Hp & Hsi & Hf1 & Hf2 & Hf0 & (vp & HR & Vl & Vh & Vp) & Hst) H1 Hlm Hmi H2.
  assert (Hv' := Hv). unfold view_ok in Hv'. rewrite clen in Hv'. assert (HVP := sim_view _ _ _ _ _ HS _ _ HR). unfold view_ok in HVP.
  assert (HOP := sim_pos _ _ _ _ _ HS _ _ HR).
  unfold st_read. destruct Hst as [(Es & Hlt)|(Es & Hend & Hsz)]; rewrite Es.
  2:{ do 3 eexists; split; [reflexivity|]. split; [|split; [|auto]].
      - unfold good_obs. cbn [observe ob_ret ob_data ob_st ob_pos ob_size next_view Z.ltb Z.compare v_pos o_pos o_size o_status st_ops].
        rewrite clen. split; [rewrite Es; discriminate|]. split; [intros; exact Hend|]. split; [exact Hp|]. split; [right; exact Hsi|]. right. auto.
      - cbn [next_view observe ob_ret Z.ltb Z.compare]. unfold tinv. cbn [v_pos v_lo v_hi]. split; [unfold view_ok; cbn [v_pos v_lo v_hi]; rewrite clen; lia|].
        repeat (split; [assumption|]). split; [|right; auto]. exists vp. split; [exact HR|]. split; [lia|]. split; [lia|exact Vp]. }
  specialize (Vp Es). rewrite HOP, Vp.
  rewrite wrap32_id by (unfold INT32_MIN, INT32_MAX in *; lia).
  destruct (Z.leb_spec mn (t_far s - (off + v_pos v))) as [Hkn|Hkn].
  - (* already known to be free of terminators *)
    set (mx' := if (mx <=? 0) || (t_far s - (off + v_pos v) <? mx) then t_far s - (off + v_pos v) else mx).
    assert (mn <= mx' <= t_far s - (off + v_pos v) /\ (mn <= mx -> mx' <= mx)) as Hmx.
    { unfold mx'. destruct (Z.leb_spec mx 0), (Z.ltb_spec (t_far s - (off + v_pos v)) mx); cbn [orb]; lia. }
    clearbody mx'.
    destruct (sim_read _ _ _ _ _ (t_in s) vp mn mx' HS HR) as (p & n & d & E & Hres); [cbn [call_ok]; lia|]. rewrite E; cbn [bind].
    destruct Hres as [[G HR']|(_ & [] & _)].
    destruct G as (G1 & G2 & G3 & G4 & [(R1 & R2 & R3 & R4 & R5)|(R1 & R2 & R3 & R4)]); cbn [observe ob_ret ob_data ob_st ob_pos ob_size next_view] in *; [|lia].
    destruct (Z.ltb_spec n (-1)); [lia|]. destruct (Z.ltb_spec 0 n); [|lia]. specialize (R4 ltac:(lia)). rewrite Hp.
    do 3 eexists; split; [reflexivity|].
    assert ((if v_pos v + n =? t_size s then Eof else Ok) = Eof -> v_pos v + n = len) as Hee by (destruct (Z.eqb_spec (v_pos v + n) (t_size s)); [intros; lia|discriminate]).
    assert ((if v_pos v + n =? t_size s then Eof else Ok) <> Error) as Hne by (destruct (_ =? _); discriminate).
    split; [|split].
    + unfold good_obs. cbn [observe ob_ret ob_data ob_st ob_pos ob_size next_view o_pos o_size o_status st_ops t_pos t_size t_st]. rewrite clen.
      destruct (Z.ltb_spec 0 n); [|lia]. cbn [v_pos]. split; [exact Hne|]. split; [exact Hee|]. split; [reflexivity|]. split; [right; exact Hsi|].
      left. split; [lia|]. split; [rewrite R2, Vp; apply cont_slice; lia|]. split; [lia|]. split; lia.
    + cbn [next_view observe ob_ret]. destruct (Z.ltb_spec 0 n); [|lia]. unfold tinv. cbn [v_pos v_lo v_hi t_key t_off t_pos t_size t_far t_in t_st].
      split; [unfold view_ok; cbn [v_pos v_lo v_hi]; rewrite clen; lia|]. repeat (split; [assumption || reflexivity|]). split.
      * eexists; split; [exact HR'|]. cbn [v_pos v_lo v_hi]. repeat split; lia.
      * destruct (Z.eqb_spec (v_pos v + n) (t_size s)) as [Eq|Nq]; [|left; split; [reflexivity|destruct fd; lia]].
        destruct fd; [lia|]. right. split; [reflexivity|]. split; [lia|discriminate].
    + unfold behind. cbn [t_st t_in]. intros _ Ee Ef. specialize (Hee Ee). rewrite Ef in *. lia.
  - assert (k_len key = zlen q) as Ekl by (destruct Hkey as (t & K1 & K2 & K3 & K4 & K5); rewrite <- Hq; lia).
    rewrite Hk, Ekl. destruct (Z.eqb_spec mn 0) as [Hz|_]; [lia|]. rewrite chk32_ok by (unfold INT32_MIN; lia). cbn [bind].
    set (tmx := if (0 <? mx) && (mx <? mn + zlen q) then mn + zlen q else mx).
    assert (mn + zlen q <= tmx <= INT32_MAX /\ (tmx = mx \/ tmx = mn + zlen q) /\ mn <= mx \/ tmx = 0 /\ mx = 0) as Htm.
    { unfold tmx. destruct (Z.ltb_spec 0 mx), (Z.ltb_spec mx (mn + zlen q)); cbn [andb]; lia. }
    clearbody tmx.
    destruct (sim_read _ _ _ _ _ (t_in s) vp (mn + zlen q) tmx HS HR) as (p & n & d & E & Hres); [cbn [call_ok]; unfold INT32_MIN; lia|]. rewrite E; cbn [bind].
    destruct Hres as [[G HR']|(_ & [] & _)].
    assert (HVP' := sim_view _ _ _ _ _ HS _ _ HR'). unfold view_ok in HVP'.
    destruct G as (G1 & G2 & G3 & G4 & [(R1 & R2 & R3 & R4 & R5)|(R1 & R2 & R3 & R4)]); cbn [observe ob_ret ob_data ob_st ob_pos ob_size next_view] in *.
    2:{ (* the parent is at its end *)
        subst n. cbn [Z.ltb Z.eqb Z.compare Pos.eqb v_pos v_lo v_hi] in *. assert (v_pos v = len /\ fd = false) as (Hvl & Hff).
        { destruct fd; [|lia]. destruct Hfd as ((F1 & F2 & _) & F3). lia. }
        do 3 eexists; split; [reflexivity|]. split; [|split].
        - unfold good_obs. cbn [observe ob_ret ob_data ob_st ob_pos ob_size next_view o_pos o_size o_status st_ops t_pos t_size t_st Z.ltb Z.compare v_pos]. rewrite clen.
          split; [discriminate|]. split; [intros; exact Hvl|]. split; [exact Hp|]. split; [right; exact Hsi|]. right. auto.
        - cbn [next_view observe ob_ret Z.ltb Z.compare]. unfold tinv. cbn [v_pos v_lo v_hi t_key t_off t_pos t_size t_far t_in t_st].
          split; [unfold view_ok; cbn [v_pos v_lo v_hi]; rewrite clen; lia|]. split; [reflexivity || assumption|]. repeat (split; [assumption|]). split.
          + eexists; split; [exact HR'|]. cbn [v_pos v_lo v_hi]. split; [lia|]. split; [lia|discriminate].
          + right. split; [reflexivity|]. split; [exact Hvl|]. rewrite Hff. discriminate.
        - unfold behind. rewrite Hff. intros _ _ X. discriminate. }
    destruct (Z.eqb_spec n (-1)) as [?|_]; [lia|]. destruct (Z.ltb_spec n (-1)) as [?|_]; [lia|]. destruct (Z.ltb_spec 0 n) as [Hn0|]; [|lia]. cbn [v_pos v_lo v_hi] in *.
    assert (zlen d = n) as Zd by (rewrite R2; apply zlen_slice; lia).
    assert (slice d 0 n = slice full (off + v_pos v) n) as Hd by (rewrite <- Zd at 1; rewrite slice_all, R2, Vp; reflexivity).
    assert (forall k, 0 <= k <= n -> slice d 0 k = slice full (off + v_pos v) k) as Hdk by (intros k Hk0; rewrite R2, Vp, slice_slice, Z.add_0_r by lia; reflexivity).
    rewrite Hd. destruct (search_at (off + v_pos v) n) as (e & -> & He); [lia|lia|lia|]. cbn [bind].
    (* resetting the parent inside the segment that was just read *)
    assert (forall k, 0 <= k <= n -> exists p' , o_reset par p (off + v_pos v + k) = Ret (p', off + v_pos v + k) /\
       R p' (mkView (off + v_pos v + k) (off + v_pos v) (off + v_pos v + n)) /\ o_pos par p' = off + v_pos v + k) as Hrs.
    { intros k Hk0. destruct (sim_reset _ _ _ _ _ p _ (off + v_pos v + k) HS HR') as (p' & r & Er & [[G' HR2]|(_ & [])]); [lia|].
      exists p'. destruct G' as (g1 & g2 & g3 & g4 & g5 & g6). cbn [next_view observe ob_ret ob_st ob_pos v_lo v_hi v_pos] in *.
      assert ((vp.(v_pos) <=? off + v_pos v + k) && (off + v_pos v + k <=? v_pos vp + n) = true) as Ew by (rewrite andb_true_iff, !Z.leb_le; lia).
      rewrite Ew in *. cbn [v_pos] in *. rewrite Er, g5, Vp in *. split; [reflexivity|]. split; [exact HR2|lia]. }
    assert (forall p' k far st d', R p' (mkView (off + v_pos v + match st with Eof => if fd then k + zlen q else k | _ => k end) (off + v_pos v) (off + v_pos v + n)) ->
        o_pos par p' = off + v_pos v + (match st with Eof => if fd then k + zlen q else k | _ => k end) ->
        0 < k <= n -> v_pos v + k <= len -> (mn <= k \/ v_pos v + k = len) -> (mn <= mx -> k <= mx) -> 
        (st = Eof -> v_pos v + k = len) -> (fd = true -> st = Ok -> v_pos v + k < len) -> st <> Error -> 0 <= far <= off + len -> (fd = true -> far < off + len) -> d' = slice full (off + v_pos v) k ->
        let s' := mkSts p' key (t_off s) far (if 0 <? k then t_pos s + k else t_pos s) (match st with Eof => if 0 <? k then t_pos s + k else t_pos s | _ => t_size s end) st in
        good_obs cont False v (Read mn mx) (observe (st_ops par) s' k d') /\
        tinv s' (next_view v (Read mn mx) (observe (st_ops par) s' k d')) /\ (behind s -> behind s')) as Hfin.
    { intros p' k far st d' A1 A2 A3 A4 A5 A6 A7 A8 A9 A10 A11 A12. destruct (Z.ltb_spec 0 k) as [Hk0|]; [|lia]. cbv zeta. rewrite Hp.
      assert (fd = true -> st = Eof \/ v_pos v + k < len) as A8' by (intros Ef; destruct st; [right; apply A8; auto|left; reflexivity|congruence]).
      split; [|split].
      - unfold good_obs. cbn [observe ob_ret ob_data ob_st ob_pos ob_size next_view o_pos o_size o_status st_ops t_pos t_size t_st]. rewrite clen.
        destruct (Z.ltb_spec 0 k); [|lia]. cbn [v_pos]. split; [exact A9|]. split; [exact A7|]. split; [reflexivity|].
        split; [right; destruct st; [exact Hsi|right; auto|exact Hsi]|].
        left. split; [lia|]. split; [rewrite A12; apply cont_slice; lia|]. split; [lia|]. split; assumption.
      - cbn [next_view observe ob_ret]. destruct (Z.ltb_spec 0 k); [|lia]. unfold tinv. cbn [v_pos v_lo v_hi t_key t_off t_pos t_size t_far t_in t_st].
        split; [unfold view_ok; cbn [v_pos v_lo v_hi]; rewrite clen; lia|]. split; [reflexivity|]. split; [exact Ho|]. split; [reflexivity|].
        split; [destruct st; [exact Hsi|right; auto|exact Hsi]|]. split; [lia|]. split; [destruct fd; [auto|exact I]|]. split; [lia|]. split.
        + eexists; split; [exact A1|]. cbn [v_pos v_lo v_hi]. split; [lia|]. split; [lia|]. intros ->. lia.
        + destruct st; [left; split; [reflexivity|destruct fd; [apply A8; reflexivity|exact I]]| |congruence]. right. split; [reflexivity|]. split; [auto|]. intros; auto.
      - unfold behind. cbn [t_st t_in]. intros _ -> Ef. rewrite A2, Ef. specialize (A7 eq_refl). lia. }
    destruct e as [j|].
    + (* found *)
      destruct He as (Ef & Ej & Ejn). assert (j = len - v_pos v) as Ej' by lia.
      assert (0 < j) as Hj by (rewrite Ef in Hlt; lia).
      destruct (Hrs (j + zlen q)) as (p' & Er & HR2 & Hpp); [lia|].
      replace (off + v_pos v + j + zlen q) with (off + v_pos v + (j + zlen q)) by lia. rewrite Er. cbn [bind].
      do 3 eexists; split; [reflexivity|]. rewrite Hdk by lia.
      apply (Hfin p' j (t_far s) Eof); [rewrite Ef; exact HR2|rewrite Ef; exact Hpp|lia|lia|lia| |lia|discriminate|discriminate|lia| |reflexivity].
      * intros; lia.
      * intros Ef'. rewrite Ef' in Hf2. exact Hf2.
    + destruct (Z.leb_spec (mn + zlen q) n) as [Hbig|Hsml].
      * destruct (Hrs (n - zlen q)) as (p' & Er & HR2 & Hpp); [lia|]. rewrite Er; cbn [bind].
        do 3 eexists; split; [reflexivity|]. rewrite Hdk by lia.
        assert (v_pos v + (n - zlen q) <= len) as Hle by (destruct fd; [specialize (He eq_refl); lia|lia]).
        apply (Hfin p' (n - zlen q) (off + v_pos v + (n - zlen q)) Ok); try assumption; try lia; try discriminate; try reflexivity.
        -- intros Ef _. specialize (He Ef). lia.
        -- intros Ef. specialize (He Ef). lia.
      * assert (fd = false) as Ef.
        { destruct fd; [|reflexivity]. specialize (He eq_refl). destruct Hfd as ((F1 & F2 & _) & _). lia. }
        rewrite Ef in Hfd. rewrite Ef in *.
        destruct (negb (mx =? 0) && (mx <? n)) eqn:Emx.
        -- apply andb_true_iff in Emx as (Em1 & Em2). apply negb_true_iff, Z.eqb_neq in Em1. apply Z.ltb_lt in Em2.
           destruct (Hrs mx) as (p' & Er & HR2 & Hpp); [lia|]. rewrite Er; cbn [bind].
           do 3 eexists; split; [reflexivity|]. rewrite Hdk by lia.
           apply (Hfin p' mx (off + v_pos v + n) Ok); try assumption; try lia; try discriminate; reflexivity.
        -- cbn [bind]. do 3 eexists; split; [reflexivity|]. rewrite Hdk by lia.
           rewrite Vp in HR'. apply (Hfin p n (t_far s) Eof); try assumption; try lia; try discriminate; try reflexivity.
Qed.
Lemma tinv_point s v : tinv s v -> tinv s (mkView (v_pos v) (v_pos v) (v_pos v)).
Proof.
  intros (Hv & Hk & Ho & Hp & Hsi & Hf1 & Hf2 & Hf0 & (vp & HR & Vl & Vh & Vp) & Hst). unfold view_ok in *.
  unfold tinv, view_ok. cbn [v_pos v_lo v_hi]. split; [lia|]. repeat (split; [assumption|]). split; [|exact Hst].
  exists vp. split; [exact HR|]. split; [lia|]. split; [lia|exact Vp].
Qed.
Lemma st_skip_loop_ok fuel : forall s v n sk, tinv s v -> 0 <= n -> (Z.to_nat n <= fuel)%nat ->
  let m := Z.min n (len - v_pos v) in
  exists s' v', default_skip_loop (st_read par) fuel s n sk = Ret (s', sk + m) /\ v_pos v' = v_pos v + m /\ tinv s' v' /\ (behind s -> behind s').
Proof.
  cbv zeta. induction fuel as [|f IH]; intros s v n sk HI Hn Hf; assert (Hv : view_ok cont v) by apply HI; unfold view_ok in Hv; rewrite clen in Hv.
  - assert (n = 0) as -> by lia. rewrite Z.min_l by lia. cbn. exists s, v. rewrite !Z.add_0_r. auto.
  - cbn [default_skip_loop]. destruct (Z.leb_spec n 0) as [Hn0|Hn0].
    { assert (n = 0) as -> by lia. rewrite Z.min_l by lia. exists s, v. rewrite !Z.add_0_r. auto. }
    set (step := if 10000000 <? n then 10000000 else n).
    assert (1 <= step <= n /\ step <= 10000000) as Hst by (unfold step; destruct (Z.ltb_spec 10000000 n); lia).
    clearbody step.
    destruct (st_read_ok s v 1 step HI) as (s' & k & d & E & G & HI' & HB); [lia|lia|lia|left; unfold INT32_MAX; lia|].
    rewrite E; cbn [bind].
    destruct G as (G1 & G2 & G3 & G4 & [(R1 & R2 & R3 & R4 & R5)|(R1 & R2 & R3 & R4)]); cbn [observe ob_ret ob_data ob_st next_view] in *; rewrite ?clen in *.
    + destruct (Z.ltb_spec k (-1)) as [?|_]; [lia|]. destruct (Z.ltb_spec k 1) as [?|_]; [lia|]. destruct (Z.ltb_spec 0 k) as [_|?]; [|lia].
      specialize (R4 ltac:(lia)).
      destruct (IH s' _ (n - k) (sk + k) HI') as (s2 & v2 & E2 & P2 & I2 & B2); [lia|lia|]. cbn [v_pos] in *.
      exists s2, v2. split; [rewrite E2; f_equal; f_equal; lia|]. split; [lia|]. split; [exact I2|auto].
    + subst k. cbn [Z.ltb Z.compare] in *. exists s', (mkView (v_pos v) (v_pos v) (v_pos v)). rewrite ?clen in R3. replace (Z.min n (len - v_pos v)) with 0 by lia. rewrite !Z.add_0_r. split; [reflexivity|]. cbn [v_pos]. split; [reflexivity|split; [exact HI'|exact HB]].
Qed.
Lemma st_exec_ok s v c : tinv s v -> seg_call lim (zlen q) c ->
  let c' := into_segment (negb fd) v c in
  exists s' ob, exec (st_ops par) s c' = Ret (s', ob) /\ good_obs cont False v c' ob /\ tinv s' (next_view v c' ob) /\ (no_reset c -> behind s -> behind s').
Proof.
  intros HI Hc. assert (HI' := HI). destruct HI' as (Hv & Hk & Ho & Hp & Hsi & Hf1 & Hf2 & Hf0 & (vp & HR & Vl & Vh & Vp) & Hst).
  assert (Hv' := Hv). unfold view_ok in Hv'. rewrite clen in Hv'.
  destruct c as [mn mx|n|t]; cbn [into_segment exec st_ops o_read o_skip o_reset seg_call] in *; cbv zeta.
  - destruct Hc as (C1 & C2 & C3 & C4). destruct (st_read_ok s v mn mx HI C1 C2 C3 C4) as (s' & n & d & E & G & I' & B). rewrite E; cbn [bind]. eauto 10.
  - unfold st_skip, default_skip. destruct (st_skip_loop_ok (Z.to_nat n) s v n 0 HI) as (s' & v' & E & P' & I' & B); [lia|lia|].
    rewrite E, Z.add_0_l in *; cbn [bind]. set (m := Z.min n (len - v_pos v)) in *. assert (0 <= m <= n /\ v_pos v + m <= len /\ (m = n \/ v_pos v + m = len)) as Hm by (unfold m; lia). clearbody m.
    do 2 eexists; split; [reflexivity|]. apply tinv_point in I'. rewrite P' in I'.
    split; [|split; [|auto]].
    + destruct I' as (_ & _ & _ & Q4 & Q5 & _ & _ & _ & _ & Q9). unfold good_obs. cbn [observe ob_ret ob_data ob_st ob_pos ob_size next_view o_pos o_size o_status st_ops v_pos] in *.
      rewrite clen, Z.max_r by lia. split; [destruct Q9 as [(-> & _)|(-> & _)]; discriminate|]. split; [intros Eo; destruct Q9 as [(Q9 & _)|(_ & Q9 & _)]; [congruence|exact Q9]|].
      split; [exact Q4|]. split; [right; exact Q5|]. left. lia.
    + cbn [next_view observe ob_ret]. rewrite Z.max_r by lia. exact I'.
  - set (t' := Z.max (v_lo v) (Z.min (last_target (negb fd) v) t)).
    assert (v_lo v <= t' <= v_hi v /\ (fd = true -> t' = v_hi v -> v_pos v = v_hi v)) as Ht.
    { unfold t', last_target. destruct fd; cbn [negb orb]; [|split; [lia|discriminate]]. destruct (Z.eqb_spec (v_pos v) (v_hi v)); lia. }
    clearbody t'. unfold st_reset. rewrite Ho. assert (HVP := sim_view _ _ _ _ _ HS _ _ HR). unfold view_ok in HVP.
    destruct (sim_reset _ _ _ _ _ (t_in s) vp (t' + off) HS HR) as (p' & r & Er & [[G HR2]|(_ & [])]); [lia|].
    destruct G as (g1 & g2 & g3 & g4 & g5 & g6). cbn [next_view observe ob_ret ob_st ob_pos v_lo v_hi v_pos] in *.
    assert ((v_lo vp <=? t' + off) && (t' + off <=? v_hi vp) = true) as Ew by (rewrite andb_true_iff, !Z.leb_le; lia).
    rewrite Ew in *. cbn [v_pos] in *. rewrite Er; cbn [bind]. subst r. destruct (Z.leb_spec off (t' + off)) as [_|?]; [|lia].
    replace (t' + off - off) with t' by lia.
    set (st' := if t' =? t_size s then t_st s else Ok).
    assert (st' = Ok /\ (if fd then t' < len else True) \/ st' = Eof /\ t' = len /\ (fd = true -> t_size s = len)) as Hst'.
    { unfold st'. destruct (Z.eqb_spec t' (t_size s)) as [Eq|Nq].
      - destruct Hst as [(Hs1 & Hs2)|(Hs1 & Hs2 & Hs3)]; [left|right; split; [exact Hs1|split; [lia|exact Hs3]]]. split; [exact Hs1|].
        destruct fd; [|exact I]. assert (t' = len -> False); [|lia]. intros. assert (t' = v_hi v) by lia. destruct Ht as (Ht0 & Ht). specialize (Ht eq_refl ltac:(assumption)). lia.
      - left. split; [reflexivity|]. destruct fd; [|exact I]. destruct (Z.eq_dec t' len) as [El|]; [|lia]. exfalso. 
        destruct Hst as [(Hs1 & Hs2)|(Hs1 & Hs2 & Hs3)]; [|specialize (Hs3 eq_refl); lia]. destruct Ht as (Ht0 & Ht). specialize (Ht eq_refl ltac:(lia)). lia. }
    clearbody st'. do 2 eexists; split; [reflexivity|]. cbn [next_view observe ob_ret].
    assert ((v_lo v <=? t') && (t' <=? v_hi v) = true) as Ew' by (rewrite andb_true_iff, !Z.leb_le; lia).
    split; [|split; [|intros []]].
    + unfold good_obs. cbn [observe ob_ret ob_data ob_st ob_pos ob_size next_view o_pos o_size o_status st_ops t_pos t_size t_st]. rewrite Ew', clen. cbn [v_pos].
      split; [destruct Hst' as [(-> & _)|(-> & _)]; discriminate|]. split; [intros Eo; destruct Hst' as [(Q9 & _)|(_ & Q9 & _)]; [congruence|exact Q9]|].
      split; [reflexivity|]. split; [right; exact Hsi|]. split; [reflexivity|lia].
    + rewrite Ew'. unfold tinv. cbn [v_pos v_lo v_hi t_key t_off t_pos t_size t_far t_in t_st]. split; [unfold view_ok; cbn [v_pos v_lo v_hi]; rewrite clen; lia|].
      split; [exact Hk|]. split; [reflexivity|]. split; [reflexivity|]. split; [exact Hsi|]. repeat (split; [assumption|]). split; [|exact Hst'].
      eexists; split; [exact HR2|]. cbn [v_pos v_lo v_hi]. split; [lia|]. split; [lia|]. intros; lia.
Qed.
Lemma st_run_ok l : forall s v, tinv s v -> Forall (seg_call lim (zlen q)) l ->
  exists s' obs, run_seg (negb fd) (st_ops par) s v l = Ret (s', obs) /\ accepts_seg (negb fd) cont False v l obs /\
    (exists v', tinv s' v') /\ (Forall no_reset l -> behind s -> behind s').
Proof.
  induction l as [|c l IH]; intros s v HI Hl; cbn [run_seg accepts_seg].
  - do 2 eexists; split; [reflexivity|]. split; [exact I|]. split; [eauto|auto].
  - assert (seg_call lim (zlen q) c) as Hc by (inversion Hl; assumption). assert (Forall (seg_call lim (zlen q)) l) as Hl' by (inversion Hl; assumption).
    destruct (st_exec_ok s v c HI Hc) as (s1 & ob & E & G & I1 & B1). rewrite E; cbn [bind].
    assert (ob_st ob <> Error) as Hne by apply G. rewrite (is_error_false _ Hne).
    destruct (IH s1 _ I1 Hl') as (s2 & obs & E2 & A2 & I2 & B2). rewrite E2; cbn [bind]. do 2 eexists; split; [reflexivity|].
    cbn [accepts_seg]. rewrite (is_error_false _ Hne). split; [auto|]. split; [exact I2|]. intros HN. inversion HN; subst. auto.
Qed.
End ST.
