(** Safety of StringTerminatedSubStream and Base64InputStream over input about which nothing is known. *)
From Verif Require Import Base StreamSpec P_Stream SegSpec M_StringStream M_Buffered BufferedSpec M_Sub ArchiveSpec KmpSpec M_Kmp P_Kmp M_StringTerm M_Base64 M_MailList.
From Verif Require Import P_Buffered P_Tame P_TameBuf.

(** What is needed beyond Tame: [hi p] is the end of what the stream can go forward to with reset(). *)
Record Seek {P} (par : ops P Z) (B : Z) (I : P -> Prop) (hi : P -> Z) : Prop := {
  sk_pos : forall p, I p -> o_pos par p <= hi p <= B;
  sk_read : forall p mn mx p' n d, I p -> INT32_MIN <= mn <= INT32_MAX -> INT32_MIN <= mx <= INT32_MAX -> o_read par p mn mx = Ret (p', n, d) ->
    hi p <= hi p' /\ (o_status par p = Error -> n < 0) /\ (mn = 1 -> o_pos par p < hi p -> 1 <= n \/ n <= -2);
  sk_reset : forall p q p' r, I p -> 0 <= q -> o_reset par p q = Ret (p', r) ->
    hi p' = hi p /\ (o_status par p <> Error -> q <= hi p -> q <= o_pos par p') /\ (o_status par p = Error -> o_status par p' = Error) }.

Section ST.
Context {P : Type}.
Variables (par : ops P Z) (content : option (list Z)) (B : Z) (neg : Prop) (I : P -> Prop) (hi : P -> Z).
Hypothesis HT : Tame par content INT32_MAX True neg I.
Hypothesis HS : Seek par (B) I hi.
Hypothesis Hsize : B <= INT32_MAX.
Variable base : Z.
Hypothesis Hbase : 0 <= base.

Lemma ipos p : I p -> 0 <= o_pos par p /\ o_pos par p <= hi p <= B.
Proof. intros H. destruct (tm_pos _ _ _ _ _ _ HT p H). pose proof (sk_pos _ _ _ _ HS p H). lia. Qed.
(** read and reset with both contracts *)
Lemma rd2 p mn mx : I p -> INT32_MIN <= mn <= INT32_MAX -> INT32_MIN <= mx <= INT32_MAX ->
  safe True (o_read par p mn mx) (fun '(p', n, d) => I p' /\ -2 <= n <= INT32_MAX /\ zlen d = Z.max 0 n /\ Forall (fun c => 0 <= c < 256) d /\
    o_pos par p <= o_pos par p' /\ (0 <= n -> o_pos par p' = o_pos par p + n) /\ (1 <= mn <= mx -> n <= mx) /\
    hi p <= hi p' /\ (o_status par p = Error -> n < 0) /\ (mn = 1 -> o_pos par p < hi p -> 1 <= n \/ n <= -2)).
Proof.
  intros HI H1 H2. pose proof (tm_read _ _ _ _ _ _ HT p mn mx HI H1 ltac:(lia) H2) as R. pose proof (fun p' n d => sk_read _ _ _ _ HS p mn mx p' n d HI H1 H2) as Q.
  destruct (o_read par p mn mx) as [((p' & n) & d)| | |]; cbn [safe] in *; try exact R. destruct (Q p' n d eq_refl) as (Q1 & Q2 & Q3).
  destruct R as (R1 & R2 & R3 & R4 & R5 & R6 & R7 & R8 & R9). do 9 (split; [assumption|]). exact Q3.
Qed.
Lemma rs2 p q : I p -> 0 <= q -> safe True (o_reset par p q) (fun '(p', r) => I p' /\ hi p' = hi p /\ (r < 0 /\ o_pos par p' = o_pos par p \/ r = o_pos par p' /\ Z.min q (o_pos par p) <= r <= Z.max q (o_pos par p)) /\
    (o_status par p <> Error -> q <= hi p -> q <= o_pos par p') /\ (o_status par p = Error -> o_status par p' = Error)).
Proof.
  intros HI H1. pose proof (tm_reset _ _ _ _ _ _ HT p q HI H1) as R. pose proof (fun p' r => sk_reset _ _ _ _ HS p q p' r HI H1) as Q.
  destruct (o_reset par p q) as [(p' & r)| | |]; cbn [safe] in *; try exact R. destruct (Q p' r eq_refl) as (Q1 & Q2 & Q3). destruct R as (R1 & R2). do 4 (split; [assumption|]). exact Q3.
Qed.

Definition stI (s : sts P) : Prop := I (t_in s) /\ k_ok (t_key s) /\ base <= t_off s /\
  (-1 <= t_size s /\ t_off s + t_size s <= hi (t_in s) /\ 0 <= t_far s <= hi (t_in s)) /\
  (t_st s <> Error -> 0 <= t_pos s /\ t_off s + t_pos s <= o_pos par (t_in s)).
Definition st_left (s : sts P) : Z := B - o_pos par (t_in s).
Lemma st_left_nonneg s : stI s -> 0 <= st_left s.
Proof. intros (H & _). unfold st_left. pose proof (ipos _ H). lia. Qed.
Lemma st_read_safe s mn mx : stI s -> 1 <= mn <= INT32_MAX -> 0 <= mx <= INT32_MAX ->
  safe True (st_read par s mn mx) (fun '(s', n, d) => stI s' /\ (1 <= n -> zlen d = n /\ Forall (fun c => 0 <= c < 256) d /\ st_left s' + n <= st_left s) /\
    (mn = 1 -> mx = 0 -> t_st s' = Ok -> st_left s' < st_left s)).
Proof.
  intros HI Hmn Hmx. pose proof HI as (H1 & Hk & Hb & (A1 & A2 & A3) & H2). unfold st_read. destruct (t_st s) eqn:Est.
  2,3: cbn [safe]; split; [exact HI|]; rewrite Est; split; [lia|congruence].
  destruct (H2 ltac:(congruence)) as (A4 & A5). pose proof (ipos _ H1) as Hp. unfold INT32_MAX in *. cbv zeta.
  rewrite wrap32_id by (unfold INT32_MIN, INT32_MAX; lia).
  destruct (Z.leb_spec mn (t_far s - o_pos par (t_in s))) as [L|L].
  - set (mx' := if (mx <=? 0) || (t_far s - o_pos par (t_in s) <? mx) then t_far s - o_pos par (t_in s) else mx).
    assert (1 <= mx' <= 2147483647) as Hmx' by (unfold mx'; destruct (Z.leb_spec mx 0), (Z.ltb_spec (t_far s - o_pos par (t_in s)) mx); cbn [orb]; lia). clearbody mx'.
    eapply safe_bind; [apply (rd2 (t_in s) mn mx' H1); unfold INT32_MIN, INT32_MAX; lia|].
    intros ((p & n) & d) (R1 & R2 & R3 & R4 & R5 & R6 & R7 & R8 & R9 & R10).
    destruct (Z.ltb_spec n (-1)) as [L1|L1]; [exact Logic.I|]. destruct (Z.ltb_spec 0 n) as [L2|L2].
    + cbn [safe]. specialize (R6 ltac:(lia)). split; [unfold stI; cbn [t_in t_key t_off t_st t_size t_far t_pos]; split; [exact R1|]; split; [exact Hk|]; split; [exact Hb|]; split; [lia|]; intros _; lia|].
      unfold st_left. cbn [t_in t_st]. split; [intros _; split; [lia|]; split; [exact R4|lia]|]. lia.
    + cbn [safe]. split; [unfold stI; cbn [t_in t_key t_off t_st t_size t_far t_pos]; split; [exact R1|]; split; [exact Hk|]; split; [exact Hb|]; split; [lia|]; intros _; lia|].
      split; [lia|]. intros E1 _ _. exfalso. specialize (R10 E1 ltac:(lia)). lia.
  - pose proof Hk as (K1 & K2 & _).
    eapply safe_bind with (Q := fun v => v = mn + k_len (t_key s) /\ v <= INT32_MAX).
    { eapply safe_impl; [apply chk_any; exact Logic.I|tauto|]. intros v (-> & Hv). destruct (Z.eqb_spec mn 0); lia. }
    intros tm (Etm & Htm).
    set (tx := if (0 <? mx) && (mx <? tm) then tm else mx).
    assert (0 <= tx <= 2147483647) as Htx by (unfold tx; destruct (Z.ltb_spec 0 mx), (Z.ltb_spec mx tm); cbn [andb]; unfold INT32_MAX in *; lia). clearbody tx.
    eapply safe_bind; [apply (rd2 (t_in s) tm tx H1); unfold INT32_MIN, INT32_MAX in *; lia|].
    intros ((p & n) & d) (R1 & R2 & R3 & R4 & R5 & R6 & R7 & R8 & R9 & R10).
    destruct (Z.eqb_spec n (-1)) as [->|N1].
    { cbn [safe]. split; [unfold stI; cbn [t_in t_key t_off t_st t_size t_far t_pos]; split; [exact R1|]; split; [exact Hk|]; split; [exact Hb|]; split; [lia|]; intros _; lia|]. split; [lia|]. cbn [t_st]. congruence. }
    destruct (Z.ltb_spec n (-1)) as [L1|L1].
    { cbn [safe]. split; [unfold stI; cbn [t_in t_key t_off t_st t_size t_far t_pos]; split; [exact R1|]; split; [exact Hk|]; split; [exact Hb|]; split; [lia|]; congruence|]. split; [lia|]. cbn [t_st]. congruence. }
    specialize (R6 ltac:(lia)). pose proof (ipos _ R1) as Hp1.
    assert (slice d 0 n = d) as Esl by (replace n with (zlen d) by lia; apply slice_all).
    destruct (search_ok False (t_key s) (slice d 0 n) Hk) as (e & Es & He); [rewrite Esl; exact R4|intros []|]. rewrite Es. cbn [bind].
    eapply safe_bind with (Q := fun '(p', n', far, st) => I p' /\ hi p <= hi p' /\ 0 <= n' <= n /\ o_pos par (t_in s) + n' <= o_pos par p' /\ 0 <= far <= hi p' /\ st <> Error /\ (st = Ok -> mx = 0 -> 1 <= n')).
    { destruct e as [j|].
      - destruct He as ((J1 & J2 & _) & _). rewrite Esl, R3, <- K1 in J2.
        eapply safe_bind; [apply (rs2 p); [exact R1|lia]|]. intros (p' & r) (T1 & T2 & T3 & T4 & T5). cbn [safe]. split; [exact T1|]. split; [lia|]. split; [lia|]. split; [lia|]. split; [lia|]. split; congruence.
      - destruct (Z.leb_spec tm n) as [L2|L2].
        + eapply safe_bind; [apply (rs2 p); [exact R1|lia]|]. intros (p' & r) (T1 & T2 & T3 & T4 & T5). cbn [safe]. split; [exact T1|]. split; [lia|]. split; [lia|]. split; [lia|]. split; [lia|]. split; [congruence|lia].
        + destruct (Z.eqb_spec mx 0) as [E0|E0]; cbn [negb andb].
          * cbn [safe]. split; [exact R1|]. split; [lia|]. split; [lia|]. split; [lia|]. split; [lia|]. split; congruence.
          * destruct (Z.ltb_spec mx n) as [L3|L3].
            -- eapply safe_bind; [apply (rs2 p); [exact R1|lia]|]. intros (p' & r) (T1 & T2 & T3 & T4 & T5). cbn [safe]. split; [exact T1|]. split; [lia|]. split; [lia|]. split; [lia|]. split; [lia|]. split; congruence.
            -- cbn [safe]. split; [exact R1|]. split; [lia|]. split; [lia|]. split; [lia|]. split; [lia|]. split; congruence. }
    intros (((p' & n') & far) & st) (T1 & T2 & T3 & T4 & T5 & T6 & T7). cbn [safe]. pose proof (ipos _ T1) as Hp2.
    split; [unfold stI; cbn [t_in t_key t_off t_st t_size t_far t_pos]; split; [exact T1|]; split; [exact Hk|]; split; [exact Hb|]; split; [destruct (Z.ltb_spec 0 n'), st; lia|]; intros _; destruct (Z.ltb_spec 0 n'); lia|].
    unfold st_left. cbn [t_in t_st]. split; [intros Hn; split; [apply zlen_slice; lia|]; split; [apply Forall_slice; exact R4|lia]|]. intros _ E0 Eok. specialize (T7 Eok E0). lia.
Qed.
Lemma st_reset_safe s q : stI s -> 0 <= q -> safe True (st_reset par s q) (fun '(s', _) => stI s').
Proof.
  intros (H1 & Hk & Hb & (A1 & A2 & A3) & H2) Hq. unfold st_reset. pose proof (ipos _ H1). eapply safe_bind; [apply (rs2 (t_in s)); [exact H1|lia]|].
  intros (p & r) (T1 & T2 & T3 & T4 & T5). pose proof (ipos _ T1). destruct (Z.leb_spec (t_off s) r) as [L|L]; cbn [safe].
  - unfold stI; cbn [t_in t_key t_off t_st t_size t_far t_pos]. split; [exact T1|]. split; [exact Hk|]. split; [exact Hb|]. split; [lia|]. intros _. lia.
  - unfold stI; cbn [t_in t_key t_off t_st t_size t_far t_pos]. split; [exact T1|]. split; [exact Hk|]. split; [exact Hb|]. split; [lia|]. congruence.
Qed.
Lemma st_skip_loop_safe fuel : forall s n k, stI s -> n <= Z.of_nat fuel -> n <= INT32_MAX ->
  safe True (default_skip_loop (st_read par) fuel s n k) (fun '(s', _) => stI s').
Proof.
  induction fuel as [|f IH]; intros s n k HI Hn Hm; cbn [default_skip_loop]; (destruct (Z.leb_spec n 0); [exact HI|]); [lia|].
  cbv zeta. set (mx := if 10000000 <? n then 10000000 else n). assert (1 <= mx <= INT32_MAX) as Hmx by (unfold mx, INT32_MAX in *; destruct (Z.ltb_spec 10000000 n); lia). clearbody mx.
  eapply safe_bind; [apply (st_read_safe s 1 mx HI); unfold INT32_MAX in *; lia|]. intros ((s' & r) & d) (R & _).
  destruct (Z.ltb_spec r (-1)); [exact R|]. destruct (Z.ltb_spec r 1); [exact R|]. apply IH; [exact R|lia|lia].
Qed.
(** calls with a documented max *)
Definition st_call (c : call) : Prop :=
  match c with Read mn mx => 1 <= mn <= INT32_MAX /\ 0 <= mx <= INT32_MAX | Skip n => 0 <= n <= INT32_MAX | Reset q => 0 <= q end.
Lemma st_exec_safe s c : stI s -> st_call c -> safe True (exec (st_ops par) s c) (fun '(s', ob) => stI s' /\ ob_st ob = t_st s').
Proof.
  intros HI Hc. destruct c as [mn mx|n|q]; cbn [exec st_call st_ops o_read o_skip o_reset] in *.
  - eapply safe_bind; [apply (st_read_safe s mn mx HI); unfold INT32_MAX in *; lia|]. intros ((s' & r) & d) (R & _). split; [exact R|reflexivity].
  - eapply safe_bind; [apply (st_skip_loop_safe (Z.to_nat n) s n 0 HI); lia|]. intros (s' & r) R. split; [exact R|reflexivity].
  - eapply safe_bind; [apply (st_reset_safe s q HI); lia|]. intros (s' & r) R. split; [exact R|reflexivity].
Qed.
Lemma st_run_safe h : Forall st_call h -> forall s, stI s -> safe True (run (st_ops par) s h) (fun '(s', _) => stI s').
Proof.
  induction 1 as [|c h Hc _ IH]; intros s HI; cbn [run]; [exact HI|].
  eapply safe_bind; [apply (st_exec_safe s c HI Hc)|]. intros (s' & ob) (R & _). destruct (is_error _); [exact R|].
  eapply safe_bind; [apply IH; exact R|]. intros (s2 & obs) R2. exact R2.
Qed.
Lemma st_run_seg_safe e h : Forall st_call h -> forall s v, stI s -> 0 <= v_lo v <= v_pos v -> v_lo v <= v_hi v -> safe True (run_seg e (st_ops par) s v h) (fun '(s', _) => stI s').
Proof.
  induction 1 as [|c h Hc _ IH]; intros s v HI Hv Hh; cbn [run_seg]; [exact HI|]. cbv zeta.
  assert (st_call (into_segment e v c)) as Hc' by (destruct c; cbn [into_segment st_call] in *; [exact Hc|exact Hc|lia]).
  eapply safe_bind; [apply (st_exec_safe s _ HI Hc')|]. intros (s' & ob) (R & _). destruct (is_error _); [exact R|].
  eapply safe_bind with (Q := fun '(s', _) => stI s'); [|intros (s2 & obs) R2; exact R2].
  assert (0 <= v_lo (next_view v (into_segment e v c) ob) <= v_pos (next_view v (into_segment e v c) ob) /\ v_lo (next_view v (into_segment e v c) ob) <= v_hi (next_view v (into_segment e v c) ob)) as (N1 & N2).
  { destruct c as [mn mx|n|q]; cbn [into_segment next_view].
    - destruct (Z.ltb_spec 0 (ob_ret ob)); cbn; lia.
    - cbn. lia.
    - unfold last_target. set (q' := Z.max _ _). assert (v_lo v <= q' <= v_hi v) as Hq by (unfold q'; destruct (e || (v_pos v =? v_hi v)); lia). clearbody q'.
      replace (v_lo v <=? q') with true by (symmetry; apply Z.leb_le; lia). replace (q' <=? v_hi v) with true by (symmetry; apply Z.leb_le; lia). cbn. lia. }
  apply IH; assumption.
Qed.
Lemma drain_safe fuel : forall s, stI s -> st_left s < Z.of_nat fuel -> safe True (drain par fuel s) (fun s' => stI s' /\ t_st s' <> Ok).
Proof.
  induction fuel as [|f IH]; intros s HI Hf; [pose proof (st_left_nonneg s HI); lia|]. cbn [drain]. destruct (t_st s) eqn:Est; [|cbn [safe]; split; [exact HI|congruence]..].
  eapply safe_bind; [apply (st_read_safe s 1 0 HI); unfold INT32_MAX; lia|]. intros ((s' & r) & d) (R & R2 & R3).
  destruct (t_st s') eqn:Est'; [apply IH; [exact R|]; specialize (R3 eq_refl eq_refl eq_refl); lia|..]; destruct f; cbn [drain]; rewrite Est'; cbn [safe]; (split; [exact R|congruence]).
Qed.
Lemma st_new_safe p term : I p -> base <= o_pos par p -> bytes term -> 1 <= zlen term <= 2 ^ 29 - 258 -> safe True (st_new par p term) (fun s => stI s /\ t_off s = o_pos par p).
Proof.
  intros HI Hp Hb Hl. unfold st_new. destruct (setQuery_ok kmp_null term) as (k & E & Hk & _); [auto|intros ->; change (zlen (@nil Z)) with 0 in Hl; lia|exact Hb|lia|]. rewrite E. cbn [bind safe].
  pose proof (ipos _ HI). split; [|reflexivity]. unfold stI. cbn. split; [exact HI|]. split; [exact Hk|]. split; [exact Hp|]. split; [lia|]. intros _; lia.
Qed.

(** *** base64 decoding of it *)
Definition b_ok (q : b64 (sts P)) : Prop := stI (q_par q) /\ 0 <= q_todo q <= 3 /\ bytes (q_win q) /\ zlen (q_win q) + st_left (q_par q) <= B /\ 0 <= q_cc q.
Definition b_more (q : b64 (sts P)) : Z := (if q_todo q =? 0 then if q_null q then 0 else q_cc q else q_todo q) + (if q_null q then 0 else zlen (q_win q) + st_left (q_par q)).
Lemma more_safe q : b_ok q -> q_null q = false -> safe True (moreData (st_ops par) q) (fun '(q', more, err) => b_ok q' /\ q_todo q' = q_todo q /\ q_cc q' = q_cc q /\
  (more = true -> q_null q' = false /\ q_win q' <> [] /\ zlen (q_win q') + st_left (q_par q') <= zlen (q_win q) + st_left (q_par q)) /\ (more = false -> q_null q' = true)).
Proof.
  intros HI Hn. unfold moreData. destruct (q_win q) as [|c w] eqn:Ew.
  2:{ cbn [safe]. split; [exact HI|]. split; [reflexivity|]. split; [reflexivity|]. split; [|discriminate]. intros _. split; [exact Hn|]. rewrite Ew. split; [discriminate|apply Z.le_refl]. }
  destruct HI as (H1 & H2 & H3 & H4 & H5). rewrite Ew in H4. unfold q_null in Hn. unfold q_par in *. destruct (q_in q) as [p|p] eqn:Ei; [|discriminate].
  eapply safe_bind; [cbn [st_ops o_read]; apply (st_read_safe p 1 0 H1); unfold INT32_MAX; lia|]. intros ((p' & n) & d) (R1 & R2 & _).
  pose proof (st_left_nonneg _ R1) as L0. assert (st_left p' <= B) as L1 by (unfold st_left; destruct R1 as (Q & _); pose proof (ipos _ Q); lia).
  destruct (Z.ltb_spec n (-1)); [|destruct (Z.leb_spec n 0)]; cbn [safe]; unfold b_ok, q_par, q_null; cbn [q_in q_win q_todo q_cc]; change (zlen (@nil Z)) with 0 in *.
  1,2: split; [split; [exact R1|]; split; [exact H2|]; split; [constructor|]; lia|]; split; [reflexivity|]; split; [reflexivity|]; split; [discriminate|reflexivity].
  destruct (R2 ltac:(lia)) as (R3 & R4 & R5). split; [split; [exact R1|]; split; [exact H2|]; split; [exact R4|]; lia|]. split; [reflexivity|]. split; [reflexivity|]. split; [|discriminate].
  intros _. split; [reflexivity|]. split; [intros ->; change (zlen (@nil Z)) with 0 in *; lia|lia].
Qed.
Lemma byte_mod z : 0 <= z mod 256 < 256. Proof. apply Z.mod_pos_bound. lia. Qed.
Lemma byte_land z : 0 <= Z.land z 255 < 256. Proof. change 255 with (Z.ones 8). rewrite Z.land_ones by lia. apply byte_mod. Qed.
Lemma loop_safe space : 1 <= space -> forall fuel q d nw, b_ok q -> q_null q = false -> q_todo q = 0 -> q_cc q <= 3 -> zlen (q_win q) + st_left (q_par q) < Z.of_nat fuel -> bytes d -> (nw = zlen d /\ nw <= space) ->
  safe True (b64_loop (st_ops par) fuel q space d nw) (fun '(q', d', nw', err) => b_ok q' /\ bytes d' /\ (nw' = zlen d' /\ nw' <= space) /\ (nw = 0 -> nw' = 0 -> q_null q' = true) /\ (q_null q' = true \/ q_todo q' <> 0) /\ nw <= nw' /\ nw' + b_more q' <= nw + b_more q).
Proof.
  intros Hsp. induction fuel as [|f IH]; intros q d nw HI Hn Ht Hcc Hf Hd Hnw.
  { destruct HI as (H1 & _). pose proof (st_left_nonneg _ H1). pose proof (zlen_nonneg (q_win q)). lia. }
  cbn [b64_loop]. eapply safe_bind; [apply (more_safe q HI Hn)|]. intros ((q1 & more) & err) (R1 & R2 & R3 & R4 & R5).
  destruct more; cbn [negb].
  2:{ cbn [safe]. split; [exact R1|]. split; [exact Hd|]. split; [lia|]. split; [intros _ _; auto|]. split; [left; auto|]. split; [lia|]. unfold b_more. rewrite Hn, (R5 eq_refl), R2, Ht, Z.eqb_refl.
      destruct HI as (H1 & _ & _ & _ & H6). pose proof (st_left_nonneg _ H1). pose proof (zlen_nonneg (q_win q)). lia. }
  destruct (R4 eq_refl) as (R6 & R7 & R8). destruct (q_win q1) as [|c win] eqn:Ew; [congruence|]. rewrite zlen_cons in *.
  destruct R1 as (B1 & B2 & B3 & B4 & B5). rewrite Ew in *. inversion B3 as [|? ? Hc Hwin]; subst. rewrite zlen_cons in *.
  assert (b_more q = q_cc q + (zlen (q_win q) + st_left (q_par q))) as Em by (unfold b_more; rewrite Hn, Ht, Z.eqb_refl; reflexivity). rewrite Em. clear Em.
  pose proof (st_left_nonneg _ B1) as L0. pose proof (zlen_nonneg win) as W0. cbv zeta.
  destruct (c =? 61).
  { set (tb := if q_cc q1 =? 2 then _ else _). assert (0 <= fst tb <= 3 /\ fst tb <= q_cc q) as (T1 & T2).
    { unfold tb. destruct (Z.eqb_spec (q_cc q1) 2); [cbn; lia|]. destruct (Z.eqb_spec (q_cc q1) 3); cbn; lia. }
    destruct tb as (todo & bits). cbn [fst] in *. cbn [safe]. unfold b_ok, b_more, q_par, q_null; cbn [q_in q_win q_todo q_cc]. change (zlen (@nil Z)) with 0.
    split; [split; [exact B1|]; split; [exact T1|]; split; [constructor|]; fold (q_par q1); lia|]. split; [exact Hd|]. split; [lia|]. split; [reflexivity|]. split; [left; reflexivity|]. split; [lia|]. fold (q_par q). destruct (Z.eqb_spec todo 0); lia. }
  eapply safe_bind with (Q := fun _ => True); [unfold inalphabet; destruct (zget _ c); exact Logic.I|]. intros ok _.
  assert (forall bits todo cc, q_null (mkQ (q_in q1) win bits todo cc) = false) as Nn by (intros; unfold q_null in *; exact R6).
  assert (forall bits todo cc, q_par (mkQ (q_in q1) win bits todo cc) = q_par q1) as Np by (intros; reflexivity).
  assert (forall bits todo cc, 0 <= todo <= 3 -> 0 <= cc -> b_ok (mkQ (q_in q1) win bits todo cc)) as Nb.
  { intros. unfold b_ok. rewrite Np. cbn [q_todo q_win q_cc]. split; [exact B1|]. split; [assumption|]. split; [exact Hwin|]. lia. }
  assert (forall bits todo cc, b_more (mkQ (q_in q1) win bits todo cc) = (if todo =? 0 then cc else todo) + (zlen win + st_left (q_par q1))) as Nm.
  { intros. unfold b_more. rewrite Nn, Np. reflexivity. }
  assert (forall bits cc (d' : list Z) nw', 0 <= cc <= 3 -> bytes d' -> (nw' = zlen d' /\ nw' <= space) -> nw <= nw' -> (nw = 0 -> nw' = 0 -> nw' = nw) -> nw' + cc <= nw + q_cc q + 1 ->
    safe True (b64_loop (st_ops par) f (mkQ (q_in q1) win bits (q_todo q1) cc) space d' nw') (fun '(q', d', nw', err) => b_ok q' /\ bytes d' /\ (nw' = zlen d' /\ nw' <= space) /\ (nw = 0 -> nw' = 0 -> q_null q' = true) /\ (q_null q' = true \/ q_todo q' <> 0) /\ nw <= nw' /\ nw' + b_more q' <= nw + (q_cc q + (zlen (q_win q) + st_left (q_par q))))) as Nx.
  { intros bits cc d' nw' C1 C2 C3 C4 C5 C6. eapply safe_impl; [apply IH; [apply Nb; lia|apply Nn|exact (eq_trans R2 Ht)|exact (proj2 C1)|rewrite Np; cbn [q_win]; lia|exact C2|exact C3]|tauto|].
    intros (((q' & d2) & nw2) & e) (G1 & G2 & G3 & G4 & G5' & G5 & G6). rewrite Nm, R2, Ht in G6. cbn [Z.eqb] in G6. split; [exact G1|]. split; [exact G2|]. split; [exact G3|]. split; [intros E1 E2; apply G4; lia|]. split; [exact G5'|]. lia. }
  destruct ok; cbn [negb]; [|apply Nx; try assumption; lia].
  eapply safe_bind with (Q := fun _ => True); [unfold decoder; destruct (zget _ c); exact Logic.I|]. intros v _.
  eapply safe_bind with (Q := fun _ => True); [unfold chk32; destruct (i32 _); exact Logic.I|]. intros bits _.
  destruct (Z.eqb_spec (q_cc q1 + 1) 4) as [E4|E4].
  - destruct (Z.leb_spec space (zlen d)) as [L|L].
    { cbn [safe]. split; [apply Nb; lia|]. split; [exact Hd|]. split; [lia|]. split; [lia|]. split; [right; cbn [q_todo]; lia|]. split; [lia|]. rewrite Nm. cbn [Z.eqb]. lia. }
    assert (forall x, zlen (d ++ [x]) = zlen d + 1) as Z1 by (intros; rewrite zlen_app; reflexivity).
    assert (forall (d : list Z) x, bytes d -> 0 <= x < 256 -> bytes (d ++ [x])) as Bx by (intros d1 x ? ?; apply Forall_app; split; [assumption|]; constructor; [lia|constructor]).
    pose proof (byte_mod (Z.shiftr bits 16)). pose proof (byte_land (Z.shiftr bits 8)). pose proof (byte_land bits).
    assert (forall (l : list Z) (x : Z), zlen (l ++ [x]) = zlen l + 1) as Z2 by (intros; rewrite zlen_app; reflexivity).
    destruct (Z.leb_spec space (zlen (d ++ [Z.shiftr bits 16 mod 256]))) as [L2|L2].
    { cbn [safe]. split; [apply Nb; lia|]. split; [apply Bx; [exact Hd|lia]|]. rewrite Z2 in *. split; [lia|]. split; [lia|]. split; [right; cbn [q_todo]; lia|]. split; [lia|]. rewrite Nm. cbn [Z.eqb]. lia. }
    destruct (Z.leb_spec space (zlen ((d ++ [Z.shiftr bits 16 mod 256]) ++ [Z.land (Z.shiftr bits 8) 255]))) as [L3|L3].
    { cbn [safe]. split; [apply Nb; lia|]. split; [apply Bx; [apply Bx; [exact Hd|lia]|lia]|]. rewrite !Z2 in *. split; [lia|]. split; [lia|]. split; [right; cbn [q_todo]; lia|]. split; [lia|]. rewrite Nm. cbn [Z.eqb]. lia. }
    rewrite !Z2 in *. apply Nx; rewrite ?Z2; try lia. apply Bx; [apply Bx; [apply Bx; [exact Hd|lia]|lia]|lia].
  - eapply safe_bind with (Q := fun _ => True); [unfold chk32; destruct (i32 _); exact Logic.I|]. intros bits2 _. apply Nx; try assumption; lia.
Qed.
Definition bJ (cap : Z) (bad : bool) (q : b64 (sts P)) (c : Z) (m : nat) : Prop :=
  b_ok q /\ (q_null q = true \/ q_todo q <> 0 \/ q_cc q <= 3) /\ m = (if q_null q then 0 else 1)%nat /\ c + b_more q <= cap.
Lemma b_more_nonneg q : b_ok q -> 0 <= b_more q.
Proof.
  intros (H1 & H2 & _ & _ & H5). unfold b_more. pose proof (st_left_nonneg _ H1). pose proof (zlen_nonneg (q_win q)). destruct (q_todo q =? 0), (q_null q); lia.
Qed.
Lemma b64_tame cap fuel : B < Z.of_nat fuel -> TameSrc (b64_src (st_ops par) fuel) None cap True (bJ cap) (fun q => stI (q_par q)).
Proof.
  intros Hfu. split.
  - intros b q c m ((H & _) & _). exact H.
  - intros q c m (_ & _ & -> & _). cbn [b64_src mu]. lia.
  - intros bad q c m space (H1 & H2 & Hm & H3) Hsp. cbn [b64_src fill]. unfold b64_fill.
    destruct (Z.eqb_spec (q_todo q) 0) as [E|E].
    + rewrite andb_true_r. destruct (q_null q) eqn:En.
      { cbn [safe]. change (zlen (@nil Z)) with 0. split; [lia|]. split; [apply H1|]. split; lia. }
      cbn [negb]. eapply safe_bind.
      { apply (loop_safe space ltac:(lia) fuel q [] 0 H1 En E); [|destruct H1 as (_ & _ & _ & H1 & _); lia|constructor|change (zlen (@nil Z)) with 0; lia].
        destruct H2 as [H2|[H2|H2]]; [discriminate|congruence|exact H2]. }
      intros (((q' & d) & nw) & err) (G1 & G2 & (G3 & G3') & G4 & G5' & G5 & G6).
      assert (nw = 0 -> q_null q' = true) as G7 by (intros Q; apply G4; [reflexivity|exact Q]).
      assert (bJ cap (bad || err) q' (c + nw) (if q_null q' then 0 else 1)%nat) as HJ.
      { split; [exact G1|]. split; [tauto|]. split; [reflexivity|lia]. }
      destruct ((nw =? 0) && q_null q' && (q_todo q' =? 0)); cbn [safe data_at in_content].
      { split; [lia|]. split; [apply G1|]. split; lia. }
      split; [lia|]. split; [apply G1|]. pose proof (b_more_nonneg _ G1). split.
      * intros Hn. split; [lia|]. split; [exact G2|]. split; [exact Logic.I|]. split; [exact Logic.I|]. split; [lia|]. eexists; split; [|exact HJ]. rewrite Hm. destruct (q_null q'); lia.
      * intros ->. eexists; split; [|rewrite Z.add_0_r in HJ; exact HJ]. rewrite Hm, (G7 eq_refl). lia.
    + rewrite andb_false_r. cbn [negb]. destruct H1 as (B1 & B2 & B3 & B4 & B5).
      assert (forall todo bits cc, todo = q_todo q - 1 -> 0 <= todo <= 3 -> (todo = 0 -> cc = 0) -> 0 <= cc -> bJ cap (bad || false) (mkQ (q_in q) (q_win q) bits todo cc) (c + 1) m /\ c + 1 <= cap) as HJ.
      { intros todo bits cc Et Et2 Hcc Hcc0. assert (b_ok (mkQ (q_in q) (q_win q) bits todo cc)) as Hb.
        { unfold b_ok, q_par. cbn [q_in q_win q_todo q_cc]. split; [exact B1|]. split; [exact Et2|]. split; [exact B3|]. split; [exact B4|exact Hcc0]. }
        assert (b_more (mkQ (q_in q) (q_win q) bits todo cc) + 1 <= b_more q) as Hmo.
        { unfold b_more in *. unfold q_null, q_par in *. cbn [q_in q_todo q_win q_cc] in *. destruct (Z.eqb_spec todo 0) as [Q|Q]; destruct (Z.eqb_spec (q_todo q) 0); try contradiction; [rewrite (Hcc Q)|]; destruct (q_in q); lia. }
        pose proof (b_more_nonneg _ Hb). split; [|lia]. split; [exact Hb|]. split; [cbn [q_todo q_cc]; destruct (Z.eq_dec todo 0); [right; right; lia|right; left; assumption]|]. split; [exact Hm|lia]. }
      destruct (Z.eqb_spec (q_todo q) 3) as [E3|E3]; [|destruct (Z.eqb_spec (q_todo q) 2) as [E2|E2]; [|destruct (Z.eqb_spec (q_todo q) 1) as [E1|E1]; [|exact Logic.I]]];
        cbn [safe data_at in_content].
      1-3: match goal with |- zlen [?x] <= _ /\ stI (q_par (mkQ _ _ ?b ?t ?cc)) /\ _ => destruct (HJ t b cc) as (J1 & J2); try lia; change (zlen [x]) with 1; split; [lia|]; split; [exact B1|]; split; [|lia]; intros _; split; [reflexivity|];
        split; [constructor; [|constructor]; first [apply byte_mod|apply byte_land]|]; split; [exact Logic.I|]; split; [exact Logic.I|]; split; [lia|]; exists m; split; [lia|exact J1] end.
Qed.
End ST.

(** *** Streams that can be searched *)
Lemma ss_seek full : zlen full <= INT32_MAX -> Forall (fun c => 0 <= c < 256) full -> Seek ss_ops (zlen full) (ss_I full) (fun _ => zlen full).
Proof.
  intros Hl Hb. split.
  - intros p (H1 & H2 & H3 & H4 & H5). cbn. lia.
  - intros p mn mx p' n d HI _ _ E. destruct (ss_read_tame full Hl Hb p mn mx HI) as (s' & n' & d' & E' & R1 & R2 & R3 & R4 & R5 & R6 & R7 & R8 & R9 & R10).
    cbn [ss_ops o_read o_pos o_status] in *. rewrite E' in E. assert (n' = n) as -> by congruence. destruct HI as (H1 & H2 & H3 & H4 & H5).
    split; [lia|]. split; [congruence|]. intros -> Hp. left. destruct (Z.lt_ge_cases n 0); [|lia]. specialize (R10 H). lia.
  - intros p q p' r (H1 & H2 & H3 & H4 & H5) Hq E. cbn [ss_ops o_reset o_pos o_status] in *. unfold ss_reset in E. rewrite H2 in E. split; [reflexivity|].
    destruct (Z.ltb_spec q 0); [lia|]. split; [|congruence]. intros _ Hq2. destruct (Z.ltb_spec q (zlen full)); injection E as <- <-; cbn [ss_pos]; lia.
Qed.
Section BS.
Context {S : Type}.
Variables (src : source S Z) (content : option (list Z)) (cap : Z) (J : bool -> S -> Z -> nat -> Prop) (K : S -> Prop).
Hypothesis HS : TameSrc src content cap True J K.
Definition bs_hi (x : bstream S Z) : Z := bs_pos x + b_avail (bs_buf x).
Definition bI (x : bstream S Z) : Prop := tI content cap J K x /\ (bs_st x = Eof -> b_avail (bs_buf x) = 0).
Lemma bI_hi x : bI x -> 0 <= bs_pos x <= bs_hi x /\ bs_hi x <= cap.
Proof. intros ((_ & acc & ((R1 & R2 & R3 & R4 & R5 & _) & Ha & A1 & A2 & A3 & A4) & _) & _). unfold bs_hi. lia. Qed.
Lemma bs_read_hi x mn mx x' n d : bI x -> INT32_MIN <= mn <= INT32_MAX -> INT32_MIN <= mx <= INT32_MAX -> bs_read src x mn mx = Ret (x', n, d) ->
  bs_hi x <= bs_hi x' /\ (bs_st x' = Eof -> b_avail (bs_buf x') = 0) /\ (bs_st x = Error -> n < 0) /\ (mn = 1 -> bs_pos x < bs_hi x -> 1 <= n \/ n <= -2).
Proof.
  intros ((HK & acc & HR & HJ & HE) & HEof) Hmn Hmx. unfold bs_read, bs_hi. destruct (bs_st x) eqn:Est.
  2,3: intros E; injection E as <- <- <-; rewrite ?Est; split; [lia|]; split; [auto|]; split; [lia|]; try (intros _ Hx; specialize (HEof eq_refl); lia); lia.
  cbv zeta. set (mx' := if mx <? mn then 0 else mx). assert (mx' = 0 \/ mx' = mx /\ mn <= mx) as Hmx' by (unfold mx'; destruct (Z.ltb_spec mx mn); lia). clearbody mx'.
  assert (safe True (if negb (bs_fin x) && (b_avail (bs_buf x) <? mn) then writeToBuffer src x mn mx' else Ret x)
    (fun x1 => bs_pos x1 = bs_pos x /\ b_avail (bs_buf x) <= b_avail (bs_buf x1) /\ bs_st x1 <> Eof /\ exists acc1, rep acc1 (bs_buf x1) (bs_pos x1))) as H1.
  { destruct (bs_fin x) eqn:Ef; cbn [negb andb]; [cbn [safe]; rewrite Est; split; [reflexivity|]; split; [lia|]; split; [congruence|]; exists acc; apply HR|].
    destruct (Z.ltb_spec (b_avail (bs_buf x)) mn) as [L|L]; [|cbn [safe]; rewrite Est; split; [reflexivity|]; split; [lia|]; split; [congruence|]; exists acc; apply HR].
    destruct (HJ eq_refl) as (m & Hm); [congruence|]. assert (0 <= b_avail (bs_buf x)) as Hav by (destruct HR as ((_ & ? & _) & _); assumption).
    unfold writeToBuffer. eapply safe_bind.
    { apply (wtb_safe src content cap True J K HS INT32_MAX (conj (Z.le_refl _) (or_intror I)) _ acc) with (bad := false) (m := m) (pos := bs_pos x);
        [exact HR|exact Hm|rewrite Est; reflexivity|congruence|reflexivity|lia|left; lia|lia|]. pose proof (ts_mu _ _ _ _ _ _ HS _ _ _ Hm). lia. }
    intros (((b & s) & st) & nw) (T1 & T2 & acc' & m' & T3 & T4 & T5 & T6). cbn [safe bs_pos bs_st bs_buf]. split; [reflexivity|]. split; [exact T5|]. split; [exact T1|]. exists acc'. apply T3. }
  match goal with |- bind ?x _ = _ -> _ => destruct x as [x1| | |]; cbn [bind safe] in *; try discriminate end.
  destruct H1 as (P1 & P2 & P3 & acc1 & R1).
  destruct (is_error (bs_st x1)) eqn:Ee.
  { intros E; injection E as <- <- <-. split; [lia|]. split; [intros Q; rewrite Q in Ee; discriminate|]. split; [lia|]. lia. }
  destruct (buf_read_ok acc1 (bs_buf x1) (bs_pos x1) mx' R1) as (b & k & Er & HRb & Hbm & Ho & Ha & Hn & Hn1 & Hn2). rewrite Er. cbn [bind].
  destruct (_ && (0 <? bs_size x1)).
  { intros E; injection E as <- <- <-. cbn [bs_pos bs_buf bs_st]. split; [lia|]. split; [congruence|]. split; lia. }
  destruct (match bs_st x1 with Ok => true | _ => false end) eqn:Eok; [|destruct (bs_st x1); [discriminate Eok|congruence|discriminate Ee]]. cbn [andb].
  destruct (Z.eqb_spec (b_avail b) 0) as [Ea|Ea]; cbn [andb]; [destruct (bs_fin x1)|].
  all: intros E; injection E as <- <- <-; cbn [bs_pos bs_buf bs_st]; (split; [lia|]); (split; [first [intros Q; congruence|intros _; assumption]|]); (split; [congruence|]); intros Hm1 Hp.
  - destruct (Z.eqb_spec k 0); left; lia.
  - left; lia.
  - left; lia.
Qed.
Lemma bs_seek : Seek (bs_ops src) (cap) bI bs_hi.
Proof.
  split.
  - intros p H. destruct (bI_hi p H). cbn. lia.
  - intros p mn mx p' n d HI H1 H2 E. destruct (bs_read_hi p mn mx p' n d HI H1 H2 E) as (A & _ & B & C). auto.
  - intros p q p' r HI Hq E. pose proof (bI_hi p HI) as Hh. destruct HI as ((HK & acc & (HR & Ha & Aok) & HJ & HE) & HEof). destruct HR as (R1 & R2 & R3 & R4 & R5 & R6 & R7). unfold BUF_LIM in R4.
    cbn [bs_ops o_reset o_status o_pos] in *. unfold bs_reset, bs_hi in *. destruct (Z.ltb_spec q 0); [lia|]. destruct (bs_st p) eqn:Est.
    3:{ injection E as <- <-. split; [reflexivity|]. split; [congruence|auto]. }
    all: destruct (Z.leb_spec (bs_pos p - q) (b_off (bs_buf p))), (Z.leb_spec (- (bs_pos p - q)) (b_avail (bs_buf p))); cbn [andb] in E; injection E as <- <-; cbn [bs_pos bs_buf b_avail]; rewrite ?wrap32_id by (unfold INT32_MIN, INT32_MAX; lia); split; try lia; split; try congruence; lia.
Qed.
Lemma bs_tame_bI (neg : Prop) : (neg -> cap <= INT64_MAX) -> Tame (bs_ops src) content INT32_MAX True neg bI.
Proof.
  intros Hneg. pose proof (bs_tame src content cap True J K HS INT32_MAX (conj (Z.le_refl _) (or_intror I)) neg ltac:(unfold INT32_MAX; lia) Hneg) as HT.
  assert (forall fuel x n sk x' k, bI x -> bs_skip_loop src fuel x n sk = Ret (x', k) -> bs_st x' = Eof -> b_avail (bs_buf x') = 0) as Hskip.
  { induction fuel as [|f IH]; intros x n sk x' k HI E He; cbn [bs_skip_loop] in E; destruct (n =? 0); try discriminate; try (assert (x = x') as <- by congruence; apply HI; exact He).
    match type of E with bind (bs_read src x 1 ?st) _ = _ => set (step := st) in *; assert (INT32_MIN <= step <= INT32_MAX) as Hs by apply wrap32_range end. clearbody step.
    pose proof (bs_read_tame src content cap True J K HS INT32_MAX (conj (Z.le_refl _) (or_intror I)) x 1 step (proj1 HI) ltac:(unfold INT32_MIN, INT32_MAX; lia) ltac:(unfold INT32_MAX; lia) Hs) as T.
    destruct (bs_read src x 1 step) as [((x1 & m) & d)| | |] eqn:Er; cbn [bind safe] in *; try discriminate.
    destruct (bs_read_hi x 1 step x1 m d HI ltac:(unfold INT32_MIN, INT32_MAX; lia) Hs Er) as (_ & A & _).
    destruct (m <=? 0); [assert (x1 = x') as <- by congruence; apply A; exact He|]. apply (IH x1 _ _ _ _ (conj (proj1 T) A) E He). }
  split.
  - intros p (H & _). exact (tm_pos _ _ _ _ _ _ HT p H).
  - intros p mn mx HI H1 H2 H3. pose proof (tm_read _ _ _ _ _ _ HT p mn mx (proj1 HI) H1 H2 H3) as R. pose proof (fun x' n d => bs_read_hi p mn mx x' n d HI H1 H3) as Q.
    cbn [bs_ops o_read o_pos o_status] in *. destruct (bs_read src p mn mx) as [((x' & n) & d)| | |]; cbn [safe] in *; try exact R.
    destruct R as (R1 & R2). destruct (Q x' n d eq_refl) as (_ & Q1 & _). split; [split; assumption|exact R2].
  - intros p n HI H1. pose proof (tm_skip _ _ _ _ _ _ HT p n (proj1 HI) H1) as R. pose proof (fun x' k => Hskip (skip_rounds n) p n 0 x' k HI) as Q.
    cbn [bs_ops o_skip o_pos o_status] in *. unfold bs_skip in *. destruct (bs_skip_loop src (skip_rounds n) p n 0) as [(x' & k)| | |]; cbn [safe] in *; try exact R.
    destruct R as (R1 & R2). split; [split; [exact R1|exact (Q x' k eq_refl)]|exact R2].
  - intros p q HI H1. pose proof (tm_reset _ _ _ _ _ _ HT p q (proj1 HI) H1) as R.
    cbn [bs_ops o_reset o_pos o_status] in *. destruct (bs_reset p q) as [(x' & r)| | |] eqn:E; cbn [safe] in *; try exact R.
    destruct R as (R1 & R2). split; [|exact R2]. split; [exact R1|]. unfold bs_reset in E. destruct (q <? 0); [discriminate|]. destruct (bs_st p) eqn:Est.
    3: assert (p = x') as <- by congruence; congruence.
    all: destruct (_ && _); [assert (bs_st x' = Ok) as -> by (injection E as <- _; reflexivity); congruence|assert (p = x') as <- by congruence; apply HI].
Qed.
End BS.
