(** C59: cpio archives that were cut off. *)
From Verif Require Import Base StreamSpec P_Stream M_Sub P_Sub P_Sub2 ArchiveSpec ArSpec M_Ar P_Archive P_Ar M_Cpio CpioSpec P_Cpio CpioCutSpec.

Section Cut.
Context {P : Type}.
Variables (par : ops P Z) (full : list Z) (lim : Z).
Hypothesis HQ : quiet par full lim.
Let R := Conforms par full False lim.
Let HS : sim par full False lim R := conforms_sim par full False lim.

Lemma quiet_skip p v k : R p v -> 0 <= k <= INT32_MAX -> exists p' r v', o_skip par p k = Ret (p', r) /\ o_status par p' <> Error /\ R p' v' /\
  v_pos v' = v_pos v + Z.max 0 r /\ v_pos v' <= zlen full /\ (0 <= r <= k /\ (r = k \/ v_pos v' = zlen full) \/ r = -1 /\ v_pos v = zlen full).
Proof.
  intros HR Hk. destruct (sim_skip _ _ _ _ _ p v k HS HR Hk) as (p' & r & E & Hres).
  assert (exec par p (Skip k) = Ret (p', observe par p' r [])) as Ex by (cbn [exec]; rewrite E; reflexivity).
  destruct (HQ p v (Skip k) p' _ HR Hk Ex) as (Q1 & _). cbn [observe ob_st] in Q1.
  destruct Hres as [[G HR']|(B & _)]; [|congruence]. exists p', r. eexists. split; [exact E|]. split; [exact Q1|]. split; [exact HR'|].
  assert (HV := HR'). apply (sim_view _ _ _ _ _ HS) in HV. unfold view_ok in HV. destruct G as (_ & _ & _ & _ & G5). cbn [observe ob_ret next_view v_pos v_lo v_hi] in *. lia.
Qed.
Lemma quiet_read p v mn mx : R p v -> 1 <= mn <= lim -> mn <= mx <= INT32_MAX -> exists p' r d v', o_read par p mn mx = Ret (p', r, d) /\ o_status par p' <> Error /\ R p' v' /\
  v_pos v' <= zlen full /\ (r < mn -> o_status par p' = Eof) /\ (0 < r <= mx /\ v_pos v' = v_pos v + r /\ (mn <= r \/ v_pos v' = zlen full) \/ r = -1 /\ v_pos v = zlen full /\ v_pos v' = zlen full).
Proof.
  intros HR H1 H2. destruct (sim_read _ _ _ _ _ p v mn mx HS HR) as (p' & r & d & E & Hres); [cbn [call_ok]; lia|].
  assert (exec par p (Read mn mx) = Ret (p', observe par p' r d)) as Ex by (cbn [exec]; rewrite E; reflexivity).
  destruct (HQ p v (Read mn mx) p' _ HR ltac:(cbn [call_ok]; lia) Ex) as (Q1 & Q2). cbn [observe ob_st ob_ret] in Q1, Q2.
  destruct Hres as [[G HR']|(_ & [] & _)]. exists p', r, d. eexists. split; [exact E|]. split; [exact Q1|]. split; [exact HR'|].
  assert (HV := HR'). apply (sim_view _ _ _ _ _ HS) in HV. unfold view_ok in HV. split; [lia|]. split; [exact Q2|].
  destruct G as (_ & _ & _ & _ & [(G1 & _ & G3 & G4 & G5)|(G1 & _ & G3 & _)]); cbn [observe ob_ret next_view] in *.
  - left. destruct (Z.ltb_spec 0 r); [|lia]. cbn [v_pos]. lia.
  - right. subst r. cbn in *. lia.
Qed.

Section Entry.
Variables (off n : Z).
Hypothesis Hoff : 0 <= off <= zlen full.
Hypothesis Hn : 0 < n <= INT32_MAX.
Hypothesis Hcut : zlen full < off + n.

Lemma cut_content : sub_content full off n = slice full off n /\ zlen (slice full off n) = zlen full - off.
Proof. unfold sub_content. destruct (Z.eqb_spec n (-1)); [lia|]. split; [reflexivity|]. rewrite zlen_slice_min by lia. lia. Qed.

Definition over (s : sub P) : Prop := su_st s = Error /\ su_size s = n /\ -1 <= su_pos s <= n /\ exists vp, R (su_par s) vp /\ v_pos vp = zlen full.

Lemma cut_step s v c : sub_R full R off n s v -> call_ok (slice full off n) lim c ->
  exists s' ob, exec (sub_ops par) s c = Ret (s', ob) /\ ob_ret ob <> -1 /\
    (good_obs (slice full off n) True v c ob /\ sub_R full R off n s' (next_view v c ob) \/ bad_obs (slice full off n) True v c ob /\ over s').
Proof.
  intros HR Hc. destruct cut_content as (EC & SL).
  assert (n = -1 \/ 0 <= n) as Hn' by lia. assert (n <= INT32_MAX) as Hm1 by lia. assert (n = -1 -> zlen full - off <= INT32_MAX) as Hm2 by lia.
  assert (n = -1 -> 0 < zlen full - off) as Hn1 by lia.
  pose proof (sub_sim par full False lim _ HS off n Hoff Hn' Hn1 Hm1 Hm2) as HSS. rewrite EC in HSS.
  assert (HR0 := HR). destruct HR0 as (W1 & W2 & W3 & W4 & W5 & W6 & W7 & vp & W8 & W9 & W10 & W11).
  unfold view_ok in W1. rewrite EC, SL in W1. specialize (W6 ltac:(lia)). assert (Hvp := sim_view _ _ _ _ _ HS _ _ W8). unfold view_ok in Hvp.
  destruct (sim_step _ _ _ _ _ HSS s v c HR Hc) as (s' & ob & E & Hres). exists s', ob. split; [exact E|].
  destruct c as [mn mx|k|q]; cbn [exec sub_ops o_read o_skip o_reset call_ok] in E, Hc.
  - unfold sub_read in E. rewrite W6, W3 in E. destruct (Z.eqb_spec n (-1)); [lia|]. destruct (Z.eqb_spec (n - v_pos v) 0); [lia|]. cbv zeta in E.
    assert (wrap32 (n - v_pos v) = n - v_pos v) as Ew by (apply wrap32_id; unfold INT32_MIN; lia). rewrite Ew in E.
    set (mn' := if n - v_pos v <? mn then n - v_pos v else mn) in *.
    set (mx' := if (mx <? mn') || (n - v_pos v <? mx) then n - v_pos v else mx) in *.
    assert (1 <= mn' <= lim /\ mn' <= mx' <= INT32_MAX) as (M1 & M2).
    { unfold mx', mn'. destruct (Z.ltb_spec (n - v_pos v) mn) as [A|A]; repeat match goal with |- context [?a <? ?b] => destruct (Z.ltb_spec a b) end; cbn [orb]; lia. }
    clearbody mn' mx'. unfold sub_read_body in E. destruct (quiet_read (su_par s) vp mn' mx' W8 M1 M2) as (p1 & r & d & v1 & E1 & Hs1 & R1 & L1 & _ & Hr).
    rewrite E1 in E. cbn [bind] in E.
    assert (negb ((mx' <? mn') || (r <=? mx')) = false) as E2 by (destruct (Z.ltb_spec mx' mn'), (Z.leb_spec r mx'); cbn [orb negb]; lia). rewrite E2 in E.
    destruct (Z.ltb_spec r (-1)); [lia|]. rewrite W6 in E. destruct (Z.eqb_spec n (-1)); [lia|]. destruct (Z.ltb_spec r mn').
    + cbn [bind] in E. injection E as <- <-. cbn [observe ob_ret]. split; [lia|]. right. split.
      * split; [reflexivity|]. split; [exact I|reflexivity].
      * split; [reflexivity|]. cbn [su_par su_size su_pos]. split; [first [reflexivity|exact W6]|]. split; [lia|]. exists v1. split; [exact R1|]. lia.
    + cbn [bind] in E. injection E as <- <-. cbn [observe ob_ret] in *. split; [lia|].
      destruct Hres as [[G HR']|(B & _)]; [left; split; [eapply good_obs_mono; [|exact G]; tauto|exact HR']|].
      exfalso. cbn [observe ob_st sub_ops o_status su_st] in B. destruct (_ =? _); congruence.
  - unfold sub_skip in E. rewrite W6, W3 in E. destruct (Z.eqb_spec n (v_pos v)); [lia|]. destruct (Z.eqb_spec k 0) as [->|Hk].
    + cbn [bind] in E. injection E as <- <-. cbn [observe ob_ret] in *. split; [lia|].
      destruct Hres as [[G HR']|(B & _)]; [left; split; [eapply good_obs_mono; [|exact G]; tauto|exact HR']|]. exfalso. cbn [observe ob_st sub_ops o_status] in B. congruence.
    + cbv zeta in E. destruct (Z.eqb_spec n (-1)); [lia|]. cbn [negb andb] in E.
      set (k' := if n - v_pos v <? k then n - v_pos v else k) in *. assert (1 <= k' <= INT32_MAX) as Hk' by (unfold k'; destruct (Z.ltb_spec (n - v_pos v) k); lia). clearbody k'.
      destruct (quiet_skip (su_par s) vp k' W8 ltac:(lia)) as (p1 & r & v1 & E1 & Hs1 & R1 & P1 & L1 & Hr). rewrite E1 in E. cbn [bind] in E.
      rewrite (is_error_false _ Hs1) in E. rewrite ?W6 in E. destruct (Z.eqb_spec (v_pos v + r) n); [lia|]. destruct (Z.leb_spec r 0).
      * cbn [bind] in E. injection E as <- <-. cbn [observe ob_ret]. split; [lia|]. right. split.
        -- split; [reflexivity|]. left. exact I.
        -- split; [reflexivity|]. cbn [su_par su_size su_pos]. split; [first [reflexivity|exact W6]|]. split; [lia|]. exists v1. split; [exact R1|]. lia.
      * cbn [bind] in E. injection E as <- <-. cbn [observe ob_ret] in *. split; [lia|].
        destruct Hres as [[G HR']|(B & _)]; [left; split; [eapply good_obs_mono; [|exact G]; tauto|exact HR']|]. exfalso. cbn [observe ob_st sub_ops o_status su_st] in B. congruence.
  - unfold sub_reset in E. destruct (Z.ltb_spec q 0); [lia|].
    destruct (sim_reset par full False lim R (su_par s) vp (q + su_off s) HS W8 ltac:(lia)) as (p1 & r & E1 & Hr1). rewrite E1 in E. cbn [bind] in E.
    destruct Hr1 as [(G1 & R1)|(_ & F)]; [|tauto]. destruct G1 as (N1 & _ & _ & _ & N5 & N6). cbn [observe ob_ret ob_st] in N1, N5, N6.
    destruct (Z.ltb_spec r (su_off s)); [lia|]. cbn [bind] in E. injection E as <- <-. cbn [observe ob_ret] in *. split; [lia|].
    destruct Hres as [[G HR']|(B & _)]; [left; split; [eapply good_obs_mono; [|exact G]; tauto|exact HR']|]. exfalso. cbn [observe ob_st sub_ops o_status su_st] in B. congruence.
Qed.
Lemma cut_run l : forall s v, sub_R full R off n s v -> Forall (call_ok (slice full off n) lim) l ->
  exists s' obs, run (sub_ops par) s l = Ret (s', obs) /\ accepts (slice full off n) True v l obs /\ Forall (fun ob => ob_ret ob <> -1) obs /\
    ((exists v', sub_R full R off n s' v') \/ over s').
Proof.
  induction l as [|c l IH]; intros s v HR Hl; cbn [run].
  - exists s, []. split; [reflexivity|]. split; [exact I|]. split; [apply Forall_nil|]. left. exists v. exact HR.
  - apply Forall_cons_iff in Hl as (Hc & Hl). destruct (cut_step s v c HR Hc) as (s1 & ob & E & Hne & Hres). rewrite E; cbn [bind].
    destruct Hres as [(G & HR1)|(B & Ho)].
    + assert (ob_st ob <> Error) as Hst by apply G. rewrite (is_error_false _ Hst).
      destruct (IH s1 _ HR1 Hl) as (s2 & obs & E2 & A2 & F2 & H2). rewrite E2; cbn [bind]. exists s2, (ob :: obs). split; [reflexivity|].
      cbn [accepts]. rewrite (is_error_false _ Hst). split; [split; assumption|]. split; [apply Forall_cons; assumption|exact H2].
    + destruct B as (B1 & B2). rewrite B1; cbn [is_error]. exists s1, [ob]. split; [reflexivity|]. cbn [accepts]. rewrite B1; cbn [is_error].
      split; [split; [split; assumption|reflexivity]|]. split; [apply Forall_cons; [exact Hne|apply Forall_nil]|right; exact Ho].
Qed.
(** leaving the entry: the input is at its end *)
Lemma cut_round s v : sub_R full R off n s v -> su_st s = Ok -> exists s' k, sub_skip par s (su_size s) = Ret (s', k) /\
  (over s' \/ exists v', sub_R full R off n s' v' /\ v_pos v' = zlen full - off /\ v_pos v < zlen full - off).
Proof.
  intros HR Hst. destruct cut_content as (EC & SL). assert (su_size s = n) as Hsz by (apply HR; lia). rewrite Hsz.
  destruct (cut_step s v (Skip n) HR) as (s' & ob & E & Hne & Hres); [cbn [call_ok]; lia|]. cbn [exec sub_ops o_skip] in E.
  destruct (sub_skip par s n) as [[s1 k]| | |] eqn:Es; cbn [bind] in E; try discriminate. injection E as <- <-. exists s1, k. split; [reflexivity|].
  destruct Hres as [(G & HR')|(_ & Ho)]; [right|left; exact Ho]. eexists. split; [exact HR'|]. destruct G as (_ & _ & _ & _ & G5).
  cbn [observe ob_ret next_view v_pos] in *. assert (HV := HR). destruct HV as (HV & HW2 & HW3 & _). unfold view_ok in HV. rewrite EC, SL in *.
  destruct G5 as [(G1 & G2 & G3)|(G1 & _)]; [|congruence]. split; [lia|]. destruct (Z.eq_dec (v_pos v) (zlen full - off)) as [Ez|]; [exfalso|lia].
  (* at the end the skip fails *)
  destruct HR as (_ & _ & W3 & W4 & W5 & W6 & W7 & vp & W8 & W9 & W10 & W11).
  unfold sub_skip in Es. rewrite Hsz, W3 in Es. destruct (Z.eqb_spec n (v_pos v)); [lia|]. destruct (Z.eqb_spec n 0); [lia|]. cbv zeta in Es.
  match type of Es with context [o_skip par (su_par s) ?x] => set (k' := x) in *; assert (1 <= k' <= INT32_MAX) as Hk' by (unfold k'; destruct (negb _ && _); lia) end. clearbody k'.
  destruct (quiet_skip (su_par s) vp k' W8 ltac:(lia)) as (p1 & r & v1 & E1 & Hs1 & R1 & P1 & L1 & Hr). rewrite E1 in Es. cbn [bind] in Es.
  rewrite (is_error_false _ Hs1) in Es. rewrite ?Hsz in Es. destruct (Z.eqb_spec (v_pos v + r) n); [lia|]. destruct (Z.leb_spec r 0); [|lia].
  injection Es as <- <-. destruct HR' as (_ & _ & _ & W & _). apply W. reflexivity.
Qed.
Lemma cut_drain fuel s : ((exists v, sub_R full R off n s v) \/ over s) -> exists s' v', cpio_drain par (S (S fuel)) s = Ret s' /\ R (su_par s') v' /\ v_pos v' = zlen full.
Proof.
  destruct cut_content as (EC & SL).
  assert (forall s, over s -> forall f, exists s' v', cpio_drain par f s = Ret s' /\ R (su_par s') v' /\ v_pos v' = zlen full) as Hov.
  { intros s0 (Ho & _ & _ & vp & H1 & H2) f. destruct f; cbn [cpio_drain]; rewrite Ho; exists s0, vp; auto. }
  assert (forall s v, sub_R full R off n s v -> su_st s <> Ok -> forall f, exists s' v', cpio_drain par f s = Ret s' /\ R (su_par s') v' /\ v_pos v' = zlen full) as Heof.
  { intros s0 v0 HR0 Hno f. assert (HR1 := HR0). destruct HR1 as (_ & _ & W3 & W4 & W5 & W6 & W7 & vp & W8 & W9 & W10 & W11). rewrite EC, SL in W5.
    destruct (su_st s0) eqn:Est; [congruence| |congruence]. specialize (W5 eq_refl). destruct f; cbn [cpio_drain]; rewrite Est; exists s0, vp; (split; [reflexivity|]; split; [exact W8|lia]). }
  intros [(v & HR)|Ho]; [|apply Hov, Ho].
  destruct (su_st s) eqn:Est; [|apply (Heof s v HR); congruence|exfalso; apply (proj1 (proj2 (proj2 (proj2 HR)))), Est].
  change (exists s' v', (match su_st s with Ok => let* (s0, _) := sub_skip par s (su_size s) in cpio_drain par (S fuel) s0 | _ => Ret s end) = Ret s' /\ R (su_par s') v' /\ v_pos v' = zlen full).
  rewrite Est. destruct (cut_round s v HR Est) as (s1 & k & E & H1). rewrite E; cbn [bind].
  destruct H1 as [Ho|(v1 & HR1 & P1 & _)]; [apply (Hov s1 Ho (S fuel))|].
  destruct (su_st s1) eqn:Est1; [|apply (Heof s1 v1 HR1); congruence|exfalso; apply (proj1 (proj2 (proj2 (proj2 HR1)))), Est1].
  change (exists s' v', (match su_st s1 with Ok => let* (s0, _) := sub_skip par s1 (su_size s1) in cpio_drain par fuel s0 | _ => Ret s1 end) = Ret s' /\ R (su_par s') v' /\ v_pos v' = zlen full).
  rewrite Est1. destruct (cut_round s1 v1 HR1 Est1) as (s2 & k2 & E2 & H2). rewrite E2; cbn [bind].
  destruct H2 as [Ho|(v2 & _ & _ & P2)]; [apply (Hov s2 Ho fuel)|lia].
Qed.
(** one skip(size()) is enough if it does not matter whether it fails *)
Lemma cut_leave s : ((exists v, sub_R full R off n s v) \/ over s) -> exists s' k v', sub_skip par s (su_size s) = Ret (s', k) /\ R (su_par s') v' /\ v_pos v' = zlen full.
Proof.
  destruct cut_content as (EC & SL).
  assert (forall s vp, R (su_par s) vp -> v_pos vp = zlen full -> su_size s = n -> -1 <= su_pos s <= n -> exists s' k v', sub_skip par s n = Ret (s', k) /\ R (su_par s') v' /\ v_pos v' = zlen full) as Hend.
  { intros s0 vp HR0 Hvp Hsz Hps. unfold sub_skip. rewrite Hsz. destruct (Z.eqb_spec n (su_pos s0)); [do 3 eexists; split; [reflexivity|]; cbn [su_par]; eauto|].
    destruct (Z.eqb_spec n 0); [lia|]. cbv zeta.
    match goal with |- context [o_skip par (su_par s0) ?x] => set (k' := x); assert (1 <= k' <= INT32_MAX) as Hk'; [unfold k'; destruct (Z.eqb_spec n (-1)); [lia|]; cbn [negb andb]; destruct (Z.ltb_spec (n - su_pos s0) n); lia|] end. clearbody k'.
    destruct (quiet_skip (su_par s0) vp k' HR0 ltac:(lia)) as (p1 & r & v1 & E1 & Hs1 & R1 & P1 & L1 & Hr). rewrite E1. cbn [bind]. rewrite (is_error_false _ Hs1).
    repeat match goal with |- context [if ?c then _ else _] => destruct c end; (do 3 eexists; split; [reflexivity|]; cbn [su_par]; split; [exact R1|lia]). }
  intros [(v & HR)|(_ & Hsz & Hps & vp & H1 & H2)]; [|rewrite Hsz; apply (Hend s vp); assumption].
  assert (HR1 := HR). destruct HR1 as (W1 & _ & W3 & W4 & W5 & W6 & W7 & vp & W8 & W9 & W10 & W11). unfold view_ok in W1. rewrite EC, SL in *. specialize (W6 ltac:(lia)).
  destruct (su_st s) eqn:Est; [|rewrite W6; apply (Hend s vp); [assumption|specialize (W5 eq_refl); lia|exact W6|lia]|congruence].
  destruct (cut_round s v HR Est) as (s1 & k & E & H1). exists s1, k. destruct H1 as [(_ & _ & _ & vq & Q1 & Q2)|(v1 & HR1 & P1 & _)]; [exists vq; auto|].
  destruct HR1 as (_ & _ & _ & _ & _ & _ & _ & vq & Q8 & Q9 & _). exists vq. split; [exact E|]. split; [exact Q8|]. lia.
Qed.
End Entry.
Hypothesis Hlim : 110 <= lim.

(** a header that is not complete *)
Lemma header_end p v inf pad0 : R p v -> zlen full - v_pos v < 110 -> exists p', cpio_header par p inf pad0 = Ret (p', inf, pad0, Eof).
Proof.
  intros HR Hk. unfold cpio_header. destruct (quiet_read p v 110 110 HR) as (p1 & r & d & v1 & E1 & Hs1 & R1 & L1 & He & Hr); [lia|unfold INT32_MAX; lia|].
  rewrite E1; cbn [bind]. assert (HV := HR). apply (sim_view _ _ _ _ _ HS) in HV. unfold view_ok in HV. destruct (Z.eqb_spec r 110); [lia|]. cbn [negb]. eexists. rewrite He by lia. reflexivity.
Qed.
Lemma header_cut name mtime size head pre c p v inf pad0 : cpio_head lim name mtime size head ->
  full = pre ++ c -> (exists t, head = c ++ t /\ t <> []) -> R p v -> v_pos v = zlen pre -> -1 <= i_size inf ->
  exists p' inf' pad', cpio_header par p inf pad0 = Ret (p', inf', pad', if zlen c <? 110 then Eof else Error) /\ -1 <= i_size inf'.
Proof.
  intros Hhd Hfull (t & Ht & Htn) HR Hv Hsz0.
  assert (0 < zlen t) as Ht0 by (pose proof (zlen_nonneg t); destruct t; [congruence|rewrite zlen_cons; pose proof (zlen_nonneg t); lia]).
  assert (zlen head = zlen c + zlen t) as Lc by (rewrite Ht, zlen_app; reflexivity). assert (zlen full = zlen pre + zlen c) as Lf by (rewrite Hfull, zlen_app; reflexivity).
  destruct (Z.ltb_spec (zlen c) 110) as [Hs|Hs].
  { destruct (header_end p v inf pad0 HR ltac:(lia)) as (p' & E). do 3 eexists. split; [exact E|]. auto. }
  destruct Hhd as (h & pad & (a & mt & sz & b & ns & ck & Eh & Za & (Zmt & Hmt & Bmt) & (Zsz & Hsz & Bsz) & Zb & (Zns & Hns & Bns) & Zck) & Ehead & Hpad & Hmod & Hhl & Hh2 & Hname).
  assert (zlen h = 110) as Zh by (rewrite Eh, !zlen_app; change (zlen [48;55;48;55;48;49]) with 6; lia).
  pose proof (zlen_nonneg name). pose proof (zlen_nonneg pre).
  assert (zlen head = 110 + (zlen name + 1 + zlen pad)) as Zhead by (rewrite Ehead, !zlen_app, Zh; change (zlen [0]) with 1; lia).
  unfold cpio_header. destruct (read_exact par full lim p v 110 HR) as (p1 & E1 & _ & HR1); [lia|unfold INT32_MAX; lia|lia|].
  rewrite E1; cbn [bind Z.eqb Pos.eqb negb].
  assert (slice full (v_pos v) 110 = h) as ->.
  { rewrite Hfull, slice_app_r by lia. rewrite Hv, Z.sub_diag. assert (slice head 0 110 = slice c 0 110) as <- by (rewrite Ht; apply slice_app_l; lia). rewrite Ehead. apply slice_pre. lia. }
  rewrite Zh. cbn [Z.leb Z.compare Pos.compare Pos.compare_cont negb].
  assert (slice h 0 6 = cpio_magic) as -> by (rewrite Eh; apply slice_pre; reflexivity). rewrite list_eqb_refl; cbn [negb].
  assert (slice h 54 8 = sz) as ->.
  { rewrite Eh. replace (_ ++ a ++ mt ++ sz ++ b ++ ns ++ ck) with (([48;55;48;55;48;49] ++ a ++ mt) ++ sz ++ b ++ ns ++ ck) by (rewrite <- !app_assoc; reflexivity). apply slice_mid; rewrite ?zlen_app; change (zlen [48;55;48;55;48;49]) with 6; lia. }
  assert (slice h 46 8 = mt) as ->.
  { rewrite Eh. replace (_ ++ a ++ mt ++ sz ++ b ++ ns ++ ck) with (([48;55;48;55;48;49] ++ a) ++ mt ++ sz ++ b ++ ns ++ ck) by (rewrite <- !app_assoc; reflexivity). apply slice_mid; rewrite ?zlen_app; change (zlen [48;55;48;55;48;49]) with 6; lia. }
  assert (slice h 94 8 = ns) as ->.
  { rewrite Eh. replace (_ ++ a ++ mt ++ sz ++ b ++ ns ++ ck) with (([48;55;48;55;48;49] ++ a ++ mt ++ sz ++ b) ++ ns ++ ck) by (rewrite <- !app_assoc; reflexivity). apply slice_mid; rewrite ?zlen_app; change (zlen [48;55;48;55;48;49]) with 6; lia. }
  rewrite (readHex_num _ _ Hsz), (readHex_num _ _ Hmt), (readHex_num _ _ Hns) by lia. cbn [bind].
  rewrite chk32_ok by (unfold INT32_MIN, INT32_MAX in *; lia). cbn [bind].
  assert (pad4 (zlen name + 1 + 2) = zlen pad) as ->.
  { apply pad4_ok; [lia|exact Hpad|]. rewrite Zhead in Hmod. replace (110 + (zlen name + 1 + zlen pad)) with (zlen name + 1 + 2 + zlen pad + 27 * 4) in Hmod by lia. rewrite Z_mod_plus_full in Hmod. exact Hmod. }
  rewrite chk32_ok by (unfold INT32_MIN, INT32_MAX in *; lia). cbn [bind].
  destruct (quiet_read p1 _ (zlen name + 1 + zlen pad) (zlen name + 1 + zlen pad) HR1) as (p2 & r & d & v2 & E2 & _ & R2 & L2 & _ & Hr); [unfold INT32_MAX in *; lia|unfold INT32_MAX in *; lia|].
  rewrite E2; cbn [bind v_pos] in *. destruct (Z.eqb_spec r (zlen name + 1 + zlen pad)); [lia|]. cbn [negb]. do 3 eexists. split; [reflexivity|]. cbn [i_size]. lia.
Qed.

(** ** the listing *)
Definition prelude fuel (a : cpio P) : out P :=
  match c_cur a with
  | inl p => Ret p
  | inr s => let* s := cpio_drain par fuel s in if c_pad a =? 0 then Ret (su_par s) else let* (p, _) := o_skip par (su_par s) (c_pad a) in Ret p
  end.
Definition at_ fuel (a : cpio P) (q : Z) : Prop :=
  c_st a = Ok /\ -1 <= i_size (c_info a) /\ i_type (c_info a) = 2 /\ exists p v, prelude fuel a = Ret p /\ R p v /\ v_pos v = q.
Lemma next_prelude fuel a : c_st a = Ok -> cpio_next par fuel a =
  let* p := prelude fuel a in
  let* (p, inf, pad, st) := cpio_header par p (c_info a) (c_pad a) in
  let* s := sub_new par p (i_size inf) in
  match st with Ok => Ret (mkCpio (inr s) pad Ok inf, Some inf) | _ => Ret (mkCpio (inl p) pad st inf, None) end.
Proof. intros E. unfold cpio_next. rewrite E. reflexivity. Qed.
Lemma none_of fuel a p p' inf' pad' st : c_st a = Ok -> prelude fuel a = Ret p -> cpio_header par p (c_info a) (c_pad a) = Ret (p', inf', pad', st) -> st <> Ok -> -1 <= i_size inf' ->
  exists st', cpio_next par fuel a = Ret (st', None) /\ c_st st' = st.
Proof.
  intros H1 H2 H3 H4 H5. rewrite next_prelude, H2 by exact H1; cbn [bind]. rewrite H3; cbn [bind]. unfold sub_new. destruct (Z.ltb_spec (i_size inf') (-1)); [lia|]. cbn [bind].
  destruct st; [congruence| |]; eexists; (split; [reflexivity|]); reflexivity.
Qed.
Lemma none_at_end fuel a : at_ fuel a (zlen full) -> exists st', cpio_next par fuel a = Ret (st', None) /\ c_st st' = Eof.
Proof.
  intros (H1 & H2 & H3 & p & v & E & HR & Hv). destruct (header_end p v (c_info a) (c_pad a) HR ltac:(lia)) as (p' & E2). eapply none_of; try eassumption. discriminate.
Qed.
Lemma cut_app {A} (a b : list A) k : zlen a <= k -> slice (a ++ b) 0 k = a ++ slice b 0 (k - zlen a).
Proof.
  intros H. unfold slice. change (Z.to_nat 0) with O. cbn [skipn]. rewrite firstn_app. unfold zlen in *. rewrite firstn_all2 by lia. f_equal. f_equal. lia.
Qed.
Lemma cut_inside {A} (a b : list A) k : 0 <= k < zlen a -> exists t, a = slice (a ++ b) 0 k ++ t /\ t <> [].
Proof.
  intros H. rewrite slice_app_l by lia. exists (skipn (Z.to_nat k) a). split; [unfold slice; change (Z.to_nat 0) with O; cbn [skipn]; symmetry; apply firstn_skipn|].
  intros E. apply (f_equal zlen) in E. unfold zlen in *. rewrite skipn_length in E. cbn in E. lia.
Qed.
(** after a complete entry *)
Lemma after_whole fuel off n s v a q : 0 <= off -> 0 <= n <= INT32_MAX -> off + n <= zlen full -> sub_R full R off n s v ->
  c_cur a = inr s -> 0 <= c_pad a < 4 -> c_st a = Ok -> -1 <= i_size (c_info a) -> i_type (c_info a) = 2 -> q = Z.min (zlen full) (off + n + c_pad a) -> at_ (S (S fuel)) a q.
Proof.
  intros H1 H2 H3 HR Hc Hp Hst Hsz Hty ->. split; [exact Hst|]. split; [exact Hsz|]. split; [exact Hty|]. unfold prelude. rewrite Hc.
  destruct (cpio_drain_ok par full lim fuel off n s v H1 H2 H3 HR) as (s' & v' & E & HRp & Hv'). rewrite E; cbn [bind].
  destruct (Z.eqb_spec (c_pad a) 0); [exists (su_par s'), v'; (split; [reflexivity|]); (split; [exact HRp|]); lia|].
  destruct (quiet_skip (su_par s') v' (c_pad a) HRp) as (p1 & r & v1 & E1 & _ & R1 & P1 & L1 & Hr); [unfold INT32_MAX; lia|]. rewrite E1; cbn [bind].
  exists p1, v1. split; [reflexivity|]. split; [exact R1|]. lia.
Qed.
Lemma cut_lists fuel k bytes ms last fin : cpio_cut lim k bytes ms last fin -> forall a,
  (0 <= k /\ (exists pre, full = pre ++ slice bytes 0 k /\ at_ (S (S fuel)) a (zlen pre)) \/ k <= 0 /\ at_ (S (S fuel)) a (zlen full)) ->
  lists_cut (cpio_provider par (S (S fuel))) lim ms last fin a.
Proof.
  intros HM. induction HM as [k|k head mtime size rest Hh Hs|k head name mtime size rest Hh Hk|k head name mtime data pad rest Hh Hnt Hk|k head name mtime data pad rest ms last fin Hh Hnt Hk Hp Hpm HM IH];
    intros a Ha; cbn [lists_cut pv_next pv_entry pv_status cpio_provider].
  - apply none_at_end. destruct Ha as [(Hk & pre & Ef & Hat)|(_ & Hat)]; [|exact Hat]. assert (slice (@nil Z) 0 k = []) as E0 by (unfold slice; rewrite skipn_nil; apply firstn_nil). rewrite E0, app_nil_r in Ef. rewrite Ef. exact Hat.
  - destruct Ha as [(Hk & pre & Ef & Hat)|(_ & Hat)]; [|apply none_at_end; exact Hat]. destruct Hat as (A1 & A2 & A3 & p & v & Ep & HR & Hv).
    rewrite cut_app in Ef by lia. destruct (cpio_header_ok par full lim Hlim _ _ _ _ pre _ p v (c_info a) (c_pad a) Hh Ef HR Hv) as (p' & v' & E & _ & _).
      change (plain_name trailer_name) with trailer_name in E. rewrite list_eqb_refl in E. eapply none_of; try eassumption; [discriminate|]. cbn [i_size].
      destruct Hh as (h & pd & (a' & mt & sz & b & ns & ck & _ & _ & _ & (_ & _ & ?) & _) & _); lia.
  - destruct Ha as [(Hk0 & pre & Ef & Hat)|(Hk0 & Hat)]; [|destruct (Z.ltb_spec k 110); [apply none_at_end; exact Hat|lia]]. destruct Hat as (A1 & A2 & A3 & p & v & Ep & HR & Hv).
    destruct (header_cut _ _ _ _ pre _ p v (c_info a) (c_pad a) Hh Ef (cut_inside head _ k ltac:(lia)) HR Hv A2) as (p' & inf' & pad' & E & Hi).
    assert (zlen (slice (head ++ rest) 0 k) = k) as Hzk by (rewrite zlen_slice; rewrite ?zlen_app; pose proof (zlen_nonneg rest); lia). rewrite Hzk in E. eapply none_of; try eassumption. destruct (k <? 110); discriminate.
  - pose proof (zlen_nonneg head). pose proof (zlen_nonneg data).
    assert (0 < zlen head) as Hh0 by (destruct Hh as (h & pd & _ & -> & _); rewrite !zlen_app; change (zlen [0]) with 1; pose proof (zlen_nonneg h); pose proof (zlen_nonneg name); pose proof (zlen_nonneg pd); lia).
    destruct Ha as [(Hk0 & pre & Ef & Hat)|(Hk0 & _)]; [|lia]. destruct Hat as (A1 & A2 & A3 & p & v & Ep & HR & Hv).
    rewrite cut_app in Ef by lia. rewrite slice_app_l in Ef by lia. set (part := slice data 0 (k - zlen head)) in *. assert (zlen part = k - zlen head) as Lp by (apply zlen_slice; lia).
    destruct (cpio_header_ok par full lim Hlim _ _ _ _ pre part p v (c_info a) (c_pad a) Hh Ef HR Hv) as (p' & v' & E & HR' & Hv').
    assert (0 <= zlen data <= INT32_MAX) as Hs0 by (destruct Hh as (h & pd & (a' & mt & sz & b & ns & ck & _ & _ & _ & (_ & _ & ?) & _) & _); lia).
    rewrite next_prelude, Ep by exact A1; cbn [bind]. rewrite E; cbn [bind i_size]. rewrite (list_eqb_false _ _ Hnt). rewrite A3.
    set (off := zlen pre + zlen head) in *. pose proof (zlen_nonneg pre).
    assert (zlen full = off + zlen part) as Lf by (rewrite Ef, !zlen_app; unfold off; lia).
    assert (slice full off (zlen data) = part) as Epart by (rewrite Ef, app_assoc, slice_app_r by (rewrite zlen_app; unfold off; lia); rewrite zlen_app; replace (off - (zlen pre + zlen head)) with 0 by (unfold off; lia); rewrite slice_to_end by lia; reflexivity).
    unfold sub_new. destruct (Z.ltb_spec (zlen data) (-1)); [lia|]. cbn [bind]. assert (o_pos par p' = off) as -> by (destruct HR' as (_ & Hpo & _); lia).
    eexists; split; [reflexivity|]. split; [reflexivity|]. intros h Hhs. unfold cpio_entry. cbn [c_cur].
    assert (sub_R full R off (zlen data) (mkSub p' off (zlen data) 0 Ok) view0) as HRs by (eapply (sub_init_R par full False lim); [exact HS|lia|exact HR'|unfold off; lia]).
    destruct (cut_run off (zlen data) ltac:(lia) ltac:(lia) ltac:(lia) h _ _ HRs) as (s' & obs & Er & Ha & Hf & Hend); [rewrite Epart; exact Hhs|]. rewrite Er; cbn [bind]. rewrite Epart in Ha.
    do 2 eexists; split; [reflexivity|]. split; [exact Ha|]. split; [exact Hf|]. apply none_at_end. split; [reflexivity|]. cbn [c_info i_size i_type]. split; [lia|]. split; [reflexivity|].
    unfold prelude. cbn [c_cur c_pad]. destruct (cut_drain off (zlen data) ltac:(lia) ltac:(lia) ltac:(lia) fuel s' Hend) as (s2 & v2 & E2 & HR2 & Hv2). rewrite E2; cbn [bind].
    destruct (Z.eqb_spec (pad4 (zlen data)) 0); [exists (su_par s2), v2; auto|].
    assert (0 <= pad4 (zlen data) < 4) as Hp4 by (unfold pad4; rewrite Z.rem_mod_nonneg by lia; pose proof (Z.mod_pos_bound (zlen data) 4); destruct (_ =? 0) eqn:?; lia).
    destruct (quiet_skip (su_par s2) v2 (pad4 (zlen data)) HR2) as (p3 & r & v3 & E3 & _ & R3 & P3 & L3 & Hr); [unfold INT32_MAX; lia|]. rewrite E3; cbn [bind]. exists p3, v3. split; [reflexivity|]. split; [exact R3|]. lia.
  - pose proof (zlen_nonneg head). pose proof (zlen_nonneg data).
    assert (0 < zlen head) as Hh0 by (destruct Hh as (h & pd & _ & -> & _); rewrite !zlen_app; change (zlen [0]) with 1; pose proof (zlen_nonneg h); pose proof (zlen_nonneg name); pose proof (zlen_nonneg pd); lia).
    destruct Ha as [(Hk0 & pre & Ef & Hat)|(Hk0 & _)]; [|lia]. destruct Hat as (A1 & A2 & A3 & p & v & Ep & HR & Hv).
    rewrite cut_app, cut_app in Ef by lia. set (more := slice (pad ++ rest) 0 (k - zlen head - zlen data)) in *.
    destruct (cpio_header_ok par full lim Hlim _ _ _ _ pre _ p v (c_info a) (c_pad a) Hh Ef HR Hv) as (p' & v' & E & HR' & Hv').
    assert (0 <= zlen data <= INT32_MAX) as Hs0 by (destruct Hh as (h & pd & (a' & mt & sz & b & ns & ck & _ & _ & _ & (_ & _ & ?) & _) & _); lia).
    rewrite next_prelude, Ep by exact A1; cbn [bind]. rewrite E; cbn [bind i_size]. rewrite (list_eqb_false _ _ Hnt). rewrite A3.
    set (off := zlen pre + zlen head) in *. pose proof (zlen_nonneg pre). pose proof (zlen_nonneg more).
    assert (zlen full = off + zlen data + zlen more) as Lf by (rewrite Ef, !zlen_app; unfold off; lia).
    assert (slice full off (zlen data) = data) as Edata by (rewrite Ef, app_assoc; apply slice_mid; [rewrite zlen_app; reflexivity|reflexivity]).
    destruct (entry_new par full lim off (zlen data) ltac:(lia) p' v' HR' Hv') as (s & En & HRs). rewrite En; cbn [bind m_info m_data].
    eexists; split; [reflexivity|]. split; [reflexivity|]. intros h Hhs. unfold cpio_entry. cbn [c_cur].
    destruct (entry_run par full lim off (zlen data) ltac:(lia) ltac:(lia) ltac:(lia) h s view0 HRs) as (s' & obs & v2 & Er & Ha & HRs'); [rewrite Edata; exact Hhs|].
    rewrite Er; cbn [bind]. rewrite Edata in Ha. do 2 eexists; split; [reflexivity|]. split; [exact Ha|].
    assert (pad4 (zlen data) = zlen pad) as Ep4 by (apply pad4_ok; lia).
    apply IH. rewrite !zlen_app. destruct (Z.lt_ge_cases k (zlen head + (zlen data + zlen pad))) as [Hs|Hs].
    + right. split; [lia|]. eapply (after_whole fuel off (zlen data) s' v2); cbn [c_cur c_pad c_st c_info i_size i_type]; try reflexivity; try assumption; try lia.
      assert (zlen more <= zlen pad); [|lia]. unfold more. rewrite slice_app_l by lia. rewrite zlen_slice by lia. lia.
    + left. split; [lia|]. exists (pre ++ head ++ data ++ pad). split.
      * rewrite Ef. unfold more. rewrite cut_app by lia. rewrite <- !app_assoc. do 4 f_equal. f_equal. lia.
      * eapply (after_whole fuel off (zlen data) s' v2); cbn [c_cur c_pad c_st c_info i_size i_type]; try reflexivity; try assumption; try lia.
        rewrite !zlen_app. assert (zlen pad <= zlen more); [|unfold off; lia]. unfold more. rewrite cut_app by lia. rewrite zlen_app. pose proof (zlen_nonneg (slice rest 0 (k - zlen head - zlen data - zlen pad))). lia.
Qed.
End Cut.
