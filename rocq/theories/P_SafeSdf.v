(** Iterating over an SDF file ends (C26), whatever the bytes are. *)
From Verif Require Import Base StreamSpec P_Stream M_StringStream M_Buffered BufferedSpec M_Sub ArchiveSpec KmpSpec M_Kmp P_Kmp M_Ar M_Sdf P_Sdf.
From Verif Require Import P_Buffered P_Tame P_TameBuf P_EntrySafe P_SafeZip.

Section Sdf.
Context {P : Type}.
Variables (par : ops P Z) (content : option (list Z)) (B : Z) (neg : Prop) (I : P -> Prop).
Hypothesis HT : Tame par content INT32_MAX True neg I.
(** [B] bounds the positions *)
Hypothesis HB : forall p, I p -> o_pos par p <= B.
Hypothesis HF : Firm par I.
Variable fuel : nat.
Hypothesis Hfuel : B + 1 < Z.of_nat fuel.
Lemma jpos p : I p -> 0 <= o_pos par p <= B.
Proof. intros H. destruct (tm_pos _ _ _ _ _ _ HT p H) as (H1 & _). pose proof (HB p H). lia. Qed.
Lemma rd p mn mx : I p -> INT32_MIN <= mn <= INT32_MAX -> INT32_MIN <= mx <= INT32_MAX ->
  safe True (o_read par p mn mx) (fun '(p', n, d) => I p' /\ -2 <= n <= INT32_MAX /\ zlen d = Z.max 0 n /\ Forall (fun c => 0 <= c < 256) d /\
    o_pos par p <= o_pos par p' /\ (0 <= n -> o_pos par p' = o_pos par p + n) /\ (1 <= mn <= mx -> n <= mx) /\ (1 <= mn -> mn <= mx \/ mx <= 0 -> n < mn -> o_status par p' <> Ok) /\
    (n < 0 -> o_status par p' = Error \/ o_pos par p' = o_pos par p)).
Proof.
  intros HI H1 H2. pose proof (tm_read _ _ _ _ _ _ HT p mn mx HI H1 ltac:(lia) H2) as R. pose proof (fun p' n d => fi_read _ _ HF p mn mx p' n d HI H1 H2) as Q.
  destruct (o_read par p mn mx) as [((p' & n) & d)| | |]; cbn [safe] in *; try exact R. specialize (Q p' n d eq_refl).
  destruct R as (R1 & R2 & R3 & R4 & R5 & R6 & R7 & R8 & R9). do 8 (split; [assumption|]). exact Q.
Qed.
Lemma rs p q : I p -> 0 <= q -> safe True (o_reset par p q) (fun '(p', r) => I p' /\ (r < 0 /\ o_pos par p' = o_pos par p \/ r = o_pos par p' /\ Z.min q (o_pos par p) <= r <= Z.max q (o_pos par p)) /\
    (o_status par p = Error -> r < 0 /\ o_status par p' = Error) /\ (o_status par p = Eof -> o_status par p' = Ok -> q <= o_pos par p')).
Proof.
  intros HI H1. pose proof (tm_reset _ _ _ _ _ _ HT p q HI H1) as R. pose proof (fun p' r => fi_reset _ _ HF p q p' r HI H1) as Q.
  destruct (o_reset par p q) as [(p' & r)| | |]; cbn [safe] in *; try exact R. destruct (Q p' r eq_refl) as (Q1 & Q2 & _). destruct R as (R1 & R2). do 3 (split; [assumption|]). exact Q2.
Qed.

(** a substream of [size] bytes at [off] whose parent has not gone further *)
Definition W (off size : Z) (s : sub P) : Prop := sub_I par I off size s /\ (o_status par (su_par s) = Error \/ o_pos par (su_par s) <= off + size).
Lemma W_ok off size s : sub_I par I off size s -> su_st s <> Error -> W off size s.
Proof. intros HS Hst. split; [exact HS|]. right. destruct HS as (_ & _ & _ & _ & H5 & H6). destruct (H6 Hst). lia. Qed.
Lemma W_read off size s mn mx : 0 <= off -> 0 <= size < 4294967296 -> W off size s -> su_st s <> Error -> 1 <= mn <= INT32_MAX -> INT32_MIN <= mx <= INT32_MAX ->
  safe True (sub_read par s mn mx) (fun '(s', n, d) => W off size s' /\ (su_st s = Ok -> su_st s' = Ok -> o_pos par (su_par s) < o_pos par (su_par s')) /\ (su_st s = Ok -> su_st s' = Eof -> su_pos s' = size)).
Proof.
  intros Ho Hz (HS & HW) Hst Hmn Hmx.
  pose proof (sub_read_tame par content INT32_MAX True neg I HT ltac:(unfold INT32_MAX; lia) off size ltac:(unfold INT32_MAX in *; lia) s mn mx HS Hst Hmn Hmx) as T.
  destruct HS as (S1 & S2 & S3 & S4 & S5 & S6). destruct (S6 Hst) as (S7 & S8). unfold sub_read in *. rewrite S3 in *.
  destruct (Z.eqb_spec size (-1)) as [?|Hne]; [lia|].
  destruct (Z.eqb_spec (size - su_pos s) 0) as [E0|E0].
  { cbn [safe] in *. split; [split; [apply T|right; cbn [su_par]; lia]|]. cbn [su_st su_pos]. split; [congruence|lia]. }
  cbv zeta in *. set (lft := size - su_pos s) in *. set (mn' := if lft <? mn then wrap32 lft else mn) in *.
  assert (1 <= mn' <= mn /\ mn' <= lft /\ (mn' = mn \/ mn' = lft)) as Hmn'.
  { unfold mn'. destruct (Z.ltb_spec lft mn); [rewrite wrap32_id by (unfold INT32_MIN, INT32_MAX, lft in *; lia)|]; unfold lft in *; lia. }
  set (mx' := if (mx <? mn') || (lft <? mx) then wrap32 lft else mx) in *.
  assert (INT32_MIN <= mx' <= INT32_MAX /\ (mn' <= mx' <= lft \/ mx' <= 0 /\ INT32_MAX <= lft)) as Hmx'.
  { unfold mx'. destruct (Z.le_gt_cases lft INT32_MAX) as [Hl|Hl].
    - destruct (Z.ltb_spec mx mn'), (Z.ltb_spec lft mx); cbn [orb]; try rewrite wrap32_id by (unfold INT32_MIN, INT32_MAX, lft in *; lia); unfold INT32_MIN, INT32_MAX, lft in *; lia.
    - assert (wrap32 lft < 0) as Ew by (apply wrap32_high; unfold lft, INT32_MAX in *; lia). pose proof (wrap32_range lft).
      destruct (Z.ltb_spec mx mn'), (Z.ltb_spec lft mx); cbn [orb]; unfold INT32_MIN, INT32_MAX, lft in *; lia. }
  clearbody mx' mn'. unfold sub_read_body in *. pose proof (rd (su_par s) mn' mx' S1 ltac:(unfold INT32_MIN in *; lia) ltac:(lia)) as R.
  destruct (o_read par (su_par s) mn' mx') as [((p & n) & d)| | |]; cbn [bind safe] in *; try exact R. destruct R as (R1 & R2 & R3 & R4 & R6 & R7 & R8 & R9 & R10).
  specialize (R9 ltac:(lia)).
  assert (n <= lft) as Hnl by (destruct Hmx' as (_ & [Q|Q]); [specialize (R8 ltac:(lia))|]; lia).
  assert (o_status par p = Error \/ o_pos par p <= off + size) as HW'.
  { destruct (Z.lt_ge_cases n 0) as [L|L]; [destruct (R10 L) as [Q|Q]; [left; exact Q|right; unfold lft in *; lia]|]. right. rewrite R7 by lia. unfold lft in *. lia. }
  destruct (negb _); [exact Logic.I|].
  destruct (Z.ltb_spec n (-1)); [cbn [safe su_par su_st su_pos] in *; split; [split; [apply T|exact HW']|]; split; congruence|].
  destruct (Z.ltb_spec n mn'); [rewrite S3 in *; destruct (Z.eqb_spec size (-1)); [lia|]; cbn [safe su_par su_st su_pos] in *; split; [split; [apply T|exact HW']|]; split; congruence|].
  cbn [safe su_par su_st su_pos] in *. split; [split; [apply T|exact HW']|]. rewrite S3. destruct (Z.eqb_spec (su_pos s + n) size) as [E|E]; split.
  - congruence.
  - intros _ _; exact E.
  - intros _ _. rewrite R7 by lia. lia.
  - intros Q1 Q2. congruence.
Qed.
Lemma W_skip off size s n : 0 <= off -> 0 <= size < 4294967296 -> W off size s -> su_st s <> Error -> 0 <= n < 4294967296 ->
  safe True (sub_skip par s n) (fun '(s', n) => W off size s').
Proof.
  intros Ho Hz (HS & HW) Hst Hn.
  pose proof (sub_skip_tame par content INT32_MAX True neg I HT off size Hz s n HS Hst Hn) as T.
  assert (HS' := HS). destruct HS' as (S1 & S2 & S3 & S4 & S5 & S6). destruct (S6 Hst) as (S7 & S8).
  unfold sub_skip in *. rewrite S3 in *.
  destruct (Z.eqb_spec size (su_pos s)) as [Es|Es]; [cbn [safe] in *; apply W_ok; [apply T|cbn [su_st]; congruence]|].
  destruct (Z.eqb_spec n 0) as [En|En]; [cbn [safe]; split; assumption|].
  set (nt := if _ && _ then size - su_pos s else n) in *. assert (1 <= nt <= n /\ nt <= size - su_pos s) as Hnt.
  { unfold nt. destruct (Z.eqb_spec size (-1)); [lia|]. cbn [negb andb]. destruct (Z.ltb_spec (size - su_pos s) n); lia. }
  clearbody nt. pose proof (tm_skip _ _ _ _ _ _ HT (su_par s) nt S1 ltac:(left; lia)) as R.
  destruct (o_skip par (su_par s) nt) as [(p & k)| | |]; cbn [bind safe] in *; try exact R. destruct R as (R1 & R2 & R3 & R4 & _).
  destruct (is_error (o_status par p)) eqn:Ee.
  { cbn [safe su_par] in *. split; [apply T|left]. cbn [su_par]. destruct (o_status par p); try discriminate; reflexivity. }
  assert (o_status par p <> Error) as Hne by (intros Q; rewrite Q in Ee; discriminate). specialize (R3 Hne). specialize (R4 ltac:(lia)). cbv zeta in *.
  destruct (Z.eqb_spec (su_pos s + k) size); [cbn [safe] in *; apply W_ok; [apply T|cbn [su_st]; congruence]|].
  destruct (Z.leb_spec k 0); cbn [safe] in *; (split; [apply T|right; cbn [su_par]; lia]).
Qed.
Lemma W_reset off size s q : 0 <= off -> 0 <= size -> I (su_par s) -> su_off s = off -> su_size s = size -> su_pos s <= size -> off <= o_pos par (su_par s) ->
  (o_status par (su_par s) = Error \/ o_pos par (su_par s) <= off + size) -> 0 <= q <= size ->
  safe True (sub_reset par s q) (fun '(s', r) => W off size s' /\ (o_status par (su_par s) = Error -> su_st s' = Error /\ o_status par (su_par s') = Error) /\ (su_st s' <> Error -> su_st s' = o_status par (su_par s'))).
Proof.
  intros Ho Hz S1 S2 S3 S4 S5 HW Hq. unfold sub_reset. destruct (Z.ltb_spec q 0); [lia|]. rewrite S2.
  pose proof (rs (su_par s) (q + off) S1 ltac:(lia)) as R.
  destruct (o_reset par (su_par s) (q + off)) as [(p & r)| | |]; cbn [bind safe] in *; try exact R. destruct R as (R1 & R2 & R3 & R4).
  destruct (Z.ltb_spec r off) as [L|L]; cbn [safe].
  - split; [split; [|]|split].
    + unfold sub_I. cbn [su_par su_off su_size su_pos su_st]. split; [exact R1|]. split; [reflexivity|]. split; [exact S3|]. split; [lia|]. split; [lia|congruence].
    + cbn [su_par]. destruct HW as [Q|Q]; [left; apply R3; exact Q|right; lia].
    + cbn [su_st su_par]. intros Q. split; [reflexivity|apply R3; exact Q].
    + cbn [su_st]. congruence.
  - destruct R2 as [R2|(R2 & R2')]; [lia|]. destruct HW as [Q|Q]; [destruct (R3 Q); lia|].
    assert (sub_I par I off size (mkSub p off (su_size s) (r - off) (o_status par p))) as HSI.
    { unfold sub_I. cbn [su_par su_off su_size su_pos su_st]. split; [exact R1|]. split; [reflexivity|]. split; [exact S3|]. split; [lia|]. split; [lia|]. intros _. lia. }
    split; [split; [exact HSI|right; cbn [su_par]; lia]|]. cbn [su_st su_par]. split; [intros Q'; destruct (R3 Q'); lia|reflexivity].
Qed.
Lemma W_run off size i h : 0 <= off -> 0 <= size < 4294967296 -> i_size i = size -> Forall (within INT32_MAX i) h -> forall s, W off size s -> su_st s <> Error ->
  safe True (run (sub_ops par) s h) (fun '(s', _) => W off size s').
Proof.
  intros Ho Hz Hi. induction 1 as [|c h (Hc & Hr) _ IH]; intros s HW Hst; cbn [run]; [exact HW|].
  assert (safe True (exec (sub_ops par) s c) (fun '(s', ob) => W off size s' /\ ob_st ob = su_st s')) as HE.
  { destruct c as [mn mx|n|q]; cbn [exec sub_ops o_read o_skip o_reset any_call] in *.
    - eapply safe_bind; [apply (W_read off size s mn mx); [exact Ho|exact Hz|exact HW|exact Hst|lia|lia]|]. intros ((s' & n) & d) (R1 & _). cbn [safe]. split; [exact R1|reflexivity].
    - eapply safe_bind; [apply (W_skip off size s n); [exact Ho|exact Hz|exact HW|exact Hst|unfold INT32_MAX in *; lia]|]. intros (s' & k) R1. cbn [safe]. split; [exact R1|reflexivity].
    - destruct HW as ((S1 & S2 & S3 & S4 & S5 & S6) & HW). eapply safe_bind; [apply (W_reset off size s q); try assumption; lia|]. intros (s' & k) (R1 & _). cbn [safe]. split; [exact R1|reflexivity]. }
  eapply safe_bind; [exact HE|]. intros (s' & ob) (R1 & R2). rewrite R2. destruct (is_error (su_st s')) eqn:E; [exact R1|].
  eapply safe_bind; [apply IH; [exact R1|intros Q; rewrite Q in E; discriminate]|]. intros (s2 & obs) R. exact R.
Qed.
Lemma drain_safe off size : 0 <= off -> 0 <= size < 4294967296 -> forall f s, W off size s -> B - o_pos par (su_par s) < Z.of_nat f ->
  safe True (sdf_drain par f s) (fun s' => W off size s' /\ su_st s' <> Ok /\ (su_st s = Ok -> su_st s' = Eof -> o_pos par (su_par s') = off + size) /\ (su_st s <> Ok -> s' = s)).
Proof.
  intros Ho Hz. induction f as [|f IH]; intros s HW Hf.
  { exfalso. pose proof (jpos _ (proj1 (proj1 HW))). lia. }
  cbn [sdf_drain]. destruct (su_st s) eqn:Est; [|cbn [safe]; rewrite Est; split; [exact HW|]; split; [congruence|]; split; congruence..].
  eapply safe_bind; [apply (W_read off size s 1 0); [exact Ho|exact Hz|exact HW|congruence|unfold INT32_MAX; lia|unfold INT32_MIN, INT32_MAX; lia]|].
  intros ((s' & n) & d) (R1 & R2 & R3). destruct (su_st s') eqn:Est'.
  - specialize (R2 Est eq_refl). eapply safe_impl; [apply IH; [exact R1|lia]|tauto|]. intros s2 (Q1 & Q2 & Q3 & Q4). split; [exact Q1|]. split; [exact Q2|]. split; [intros _; apply Q3; exact Est'|congruence].
  - assert (sdf_drain par f s' = Ret s') as -> by (destruct f; cbn [sdf_drain]; rewrite Est'; reflexivity). cbn [safe]. split; [exact R1|]. split; [congruence|].
    split; [|congruence]. intros _ _. specialize (R3 Est eq_refl). destruct R1 as ((_ & _ & _ & _ & _ & S6) & _). destruct (S6 ltac:(congruence)). lia.
  - assert (sdf_drain par f s' = Ret s') as -> by (destruct f; cbn [sdf_drain]; rewrite Est'; reflexivity). cbn [safe]. split; [exact R1|]. split; [congruence|]. split; congruence.
Qed.
Lemma newlines_safe : forall f p b, I p -> B - o_pos par p < Z.of_nat f -> safe True (sdf_newlines par f p b) (fun p' => I p' /\ o_pos par p <= o_pos par p').
Proof.
  induction f as [|f IH]; intros p b HI Hf; [exfalso; pose proof (jpos _ HI); lia|].
  cbn [sdf_newlines]. destruct (o_status par p) eqn:Est; [|cbn [safe]; split; [exact HI|lia]..].
  destruct b as [|c b]; [exact Logic.I|]. destruct (_ || _); [|cbn [safe]; split; [exact HI|lia]].
  eapply safe_bind; [apply (rd p 1 1 HI); unfold INT32_MIN, INT32_MAX; lia|]. intros ((p' & n) & d) (R1 & R2 & R3 & R4 & R6 & R7 & R8 & R9 & R10).
  destruct (Z.le_gt_cases 1 n) as [L|L].
  - eapply safe_impl; [apply IH; [exact R1|rewrite R7 by lia; lia]|tauto|]. intros p2 (Q1 & Q2). split; [exact Q1|lia].
  - specialize (R9 ltac:(lia) ltac:(lia) ltac:(lia)). assert (sdf_newlines par f p' d = Ret p') as -> by (destruct f; cbn [sdf_newlines]; destruct (o_status par p'); congruence). cbn [safe]. split; [exact R1|lia].
Qed.
Variable k : searcher.
Hypothesis Hk : forall hay, KmpSpec.bytes hay -> exists r, search k hay = Ret r /\ match r with Some j => 0 <= j < zlen hay | None => True end.
Lemma search_safe : forall f p total, I p -> 0 <= total <= INT32_MAX -> B - o_pos par p < Z.of_nat f ->
  safe True (sdf_search par f k p total) (fun '(p', len) => I p' /\ o_pos par p <= o_pos par p' /\ (o_status par p <> Ok -> len = 0 /\ p' = p) /\ 0 <= len < 4294967296).
Proof.
  induction f as [|f IH]; intros p total HI Ht Hf; [exfalso; pose proof (jpos _ HI); lia|].
  cbn [sdf_search]. destruct (o_status par p) eqn:Est; [|cbn [safe]; split; [exact HI|]; split; [lia|]; split; [auto|lia]..].
  eapply safe_bind; [apply (rd p 1024 0 HI); unfold INT32_MIN, INT32_MAX; lia|]. intros ((p' & n) & d) (R1 & R2 & R3 & R4 & R6 & R7 & R8 & R9 & R10).
  assert (forall t, 0 <= t <= INT32_MAX -> safe True (sdf_search par f k p' t) (fun '(p', len) => I p' /\ o_pos par p <= o_pos par p' /\ (Ok <> Ok -> len = 0 /\ p' = p) /\ 0 <= len < 4294967296)) as Hrec.
  { intros t Htt. destruct (Z.le_gt_cases 1024 n) as [L|L].
    - eapply safe_impl; [apply (IH p' t R1 Htt); rewrite R7 by lia; lia|tauto|]. intros (p2 & len) (Q1 & Q2 & Q3 & Q4). split; [exact Q1|]. split; [lia|]. split; [congruence|exact Q4].
    - specialize (R9 ltac:(lia) ltac:(lia) ltac:(lia)). assert (sdf_search par f k p' t = Ret (p', 0)) as -> by (destruct f; cbn [sdf_search]; destruct (o_status par p'); congruence).
      cbn [safe]. split; [exact R1|]. split; [lia|]. split; [congruence|lia]. }
  destruct (Z.ltb_spec 0 n) as [L|L].
  - destruct (Hk d R4) as (r & Er & Hr). rewrite Er. cbn [bind]. destruct r as [j|].
    + cbn [safe]. split; [exact R1|]. split; [lia|]. split; [congruence|]. unfold INT32_MAX in *. lia.
    + unfold chk32. destruct (i32 (total + n)) eqn:Ei; cbn [bind]; [|exact Logic.I]. unfold i32 in Ei. apply andb_true_iff in Ei as (Ei1 & Ei2). apply Z.leb_le in Ei1, Ei2. apply Hrec. unfold INT32_MAX in *; lia.
  - apply Hrec. lia.
Qed.
Lemma leave_safe off size s : 0 <= off -> 0 <= size < 4294967296 -> I (su_par s) -> su_off s = off -> su_size s = size -> su_pos s <= size -> off <= o_pos par (su_par s) ->
  (o_status par (su_par s) = Error \/ o_pos par (su_par s) <= off + size) ->
  safe True (sdf_leave par fuel s (off + size)) (fun '(p, err) => I p /\ (o_status par p = Ok -> err = true \/ off + size <= o_pos par p)).
Proof.
  intros Ho Hz S1 S2 S3 S4 S5 HW. unfold sdf_leave.
  eapply safe_bind; [apply (W_reset off size s 0); try assumption; lia|]. intros (s1 & r1) (W1 & _ & E1).
  eapply safe_bind; [apply (drain_safe off size Ho Hz fuel s1 W1)|].
  { pose proof (jpos _ (proj1 (proj1 W1))). lia. }
  intros s2 (W2 & N2 & D2 & U2). cbv zeta. pose proof (rs (su_par s2) (off + size) (proj1 (proj1 W2)) ltac:(lia)) as R.
  destruct (o_reset par (su_par s2) (off + size)) as [(p & r)| | |]; cbn [bind safe] in *; try exact R. destruct R as (R1 & R2 & R3 & R4).
  assert (o_status par p = Ok -> is_error (su_st s2) = true \/ off + size <= o_pos par p) as HP.
  { intros Hp. destruct (su_st s2) eqn:Es2; [congruence| |left; reflexivity]. right. destruct (su_st s1) eqn:Es1.
    - specialize (D2 eq_refl eq_refl). lia.
    - rewrite (U2 ltac:(congruence)) in *. apply R4; [symmetry; apply E1; congruence|exact Hp].
    - rewrite (U2 ltac:(congruence)) in *. congruence. }
  destruct (o_status par p) eqn:Ep; [|cbn [safe]; split; [exact R1|congruence]..]. specialize (HP eq_refl).
  assert (forall p', I p' -> o_pos par p <= o_pos par p' -> I p' /\ (o_status par p' = Ok -> is_error (su_st s2) = true \/ off + size <= o_pos par p')) as HG.
  { intros p' H1 H2. split; [exact H1|]. intros _. destruct HP as [Q|Q]; [left; exact Q|right; lia]. }
  eapply safe_bind; [apply (rd p 4 4 R1); unfold INT32_MIN, INT32_MAX; lia|]. intros ((p1 & n) & d) (Q1 & Q2 & Q3 & Q4 & Q6 & _).
  destruct (_ && _); [|cbn [safe]; apply HG; assumption].
  eapply safe_bind; [apply (rd p1 1 1 Q1); unfold INT32_MIN, INT32_MAX; lia|]. intros ((p2 & n2) & d2) (V1 & V2 & V3 & V4 & V6 & _).
  eapply safe_bind; [apply (newlines_safe fuel p2 d2 V1); pose proof (jpos _ V1); lia|]. intros p3 (X1 & X2). cbn [safe]. apply HG; [exact X1|lia].
Qed.
(** the input stream *)
Definition sdf_in (a : sdf P) : Prop := I (match sd_cur a with inl p => p | inr s => su_par s end).
Definition sdI (a : sdf P) (b : Z) : Prop := sdf_in a /\ (
  sd_st a <> Ok /\ b = 0 \/
  sd_st a = Ok /\ sd_kmp a = k /\ match sd_cur a with
    | inl p => I p /\ sd_prev a = 0 /\ b = B + 2
    | inr s => exists off size, 0 <= off /\ 1 <= size < 4294967296 /\ W off size s /\ sd_prev a = off + size /\ b = B - off + 1
    end).
Lemma sdI_nonneg a b : sdI a b -> 0 <= b /\ (sd_st a = Ok -> 1 <= b).
Proof.
  intros (_ & [(Q & ->)|(_ & _ & Hc)]); [split; [lia|congruence]|]. destruct (sd_cur a); [destruct Hc as (H & _ & ->); pose proof (jpos _ H); lia|].
  destruct Hc as (off & size & H1 & H2 & (HS & _) & _ & ->). destruct HS as (S1 & _ & _ & S4 & _). pose proof (jpos _ S1). lia.
Qed.
Lemma sdf_next_safe a b : sdI a b -> safe True (pv_next (sdf_provider par fuel) a) (fun '(st1, r) => match r with None => sdf_in st1 | Some i =>
     entry_good (sdf_provider par fuel) True INT32_MAX B i st1 /\ forall h, Forall (within INT32_MAX i) h -> safe True (pv_entry (sdf_provider par fuel) st1 h) (fun '(st2, _) => exists b', sdI st2 b' /\ b' < b) end).
Proof.
  intros HI. pose proof (sdI_nonneg a b HI) as (_ & Hb). cbn [sdf_provider pv_next pv_entry]. unfold sdf_next.
  destruct HI as (Hin & [(Hst & _)|(Hst & Ek & Hc)]); [destruct (sd_st a); [congruence|exact Hin..]|]. specialize (Hb Hst). rewrite Hst.
  assert (exists lo, 0 <= lo /\ B - lo + 1 < b /\ safe True (match sd_cur a with
                       | inl p => let* (p, _) := o_reset par p (sd_prev a) in Ret (p, false)
                       | inr s => let* (p, _) := o_reset par (su_par s) (sd_prev a) in
                                  sdf_leave par fuel (mkSub p (su_off s) (su_size s) (su_pos s) (su_st s)) (sd_prev a)
                       end) (fun '(p, err) => I p /\ (o_status par p = Ok -> err = true \/ lo <= o_pos par p))) as (lo & Hlo & Hlob & HL).
  { destruct (sd_cur a) as [p|s].
    - destruct Hc as (H1 & H2 & H3). exists 0. split; [lia|]. split; [lia|]. rewrite H2. eapply safe_bind; [apply (rs p 0 H1); lia|]. intros (p' & r) (R1 & _). cbn [safe]. split; [exact R1|].
      intros _. right. apply (jpos _ R1).
    - destruct Hc as (off & size & H1 & H2 & (HS & HW) & H3 & H4). exists (off + size). split; [lia|]. split; [lia|]. rewrite H3. destruct HS as (S1 & S2 & S3 & S4 & S5 & S6).
      eapply safe_bind; [apply (rs (su_par s) (off + size) S1); lia|]. intros (p' & r) (R1 & R2 & R3 & R4). apply (leave_safe off size); cbn [su_par su_off su_size su_pos]; try assumption; try lia.
      destruct HW as [Q|Q]; [left; apply R3; exact Q|right; lia]. }
  eapply safe_bind; [exact HL|]. intros (p & err) (P1 & P2). cbv zeta. rewrite Ek.
  eapply safe_bind; [apply (search_safe fuel p 0 P1); [unfold INT32_MAX; lia|pose proof (jpos _ P1); lia]|]. intros (p1 & len) (Q1 & Q2 & Q3 & Q4).
  destruct (is_error _); [exact Q1|].
  eapply safe_bind; [apply (rs p1 (o_pos par p) Q1); apply (jpos _ P1)|]. intros (p2 & r) (R1 & R2 & _).
  destruct (Z.ltb_spec 0 len) as [L|L]; [|exact R1].
  assert (o_status par p = Ok) as Hp by (destruct (o_status par p); [reflexivity|destruct Q3 as (Q3 & _); [congruence|lia]..]). specialize (P2 Hp).
  eapply safe_bind; [apply (sub_new_tame par True I (o_pos par p2) len ltac:(lia) p2 R1 eq_refl)|]. intros s (HS & Hs & Hsz).
  unfold chk32. destruct (i32 (sd_num a + 1)); cbn [bind]; [|exact Logic.I]. cbn [safe]. split.
  { apply (sub_good par content INT32_MAX True neg I HT HF ltac:(unfold INT32_MAX; lia) B HB (o_pos par p2) len ltac:(apply (jpos _ R1)) ltac:(lia)) with (s := s) (wrap := fun s' => mkSdf (inr s') k (sd_num a + 1) (o_pos par p2 + len) (if err then Error else Ok)); [|exact HS|exact Hs|exact Hsz|reflexivity].
    intros h. reflexivity. }
  intros h Hh. unfold sdf_entry. cbn [sd_cur sd_kmp sd_num sd_prev sd_st].
  pose proof (jpos _ R1) as Hp2.
  eapply safe_bind; [apply (W_run (o_pos par p2) len _ h ltac:(lia) ltac:(lia) (eq_refl : i_size (mkInfo _ len 0 2) = len) Hh s); [apply W_ok; [exact HS|congruence]|congruence]|].
  intros (s' & obs) HW'. cbn [safe]. destruct err.
  - exists 0. split; [split; [apply HW'|]; left; cbn [sd_st]; split; [congruence|reflexivity]|]. pose proof (jpos _ P1). lia.
  - destruct P2 as [P2|P2]; [discriminate|]. exists (B - o_pos par p2 + 1). split; [|lia].
    split; [apply HW'|]. right. cbn [sd_st sd_kmp sd_cur sd_prev]. split; [reflexivity|]. split; [reflexivity|]. exists (o_pos par p2), len. split; [lia|]. split; [lia|]. split; [exact HW'|]. split; reflexivity.
Qed.
End Sdf.
(** sdfinputstream.cpp:34-38 and the iteration *)
Theorem sdf_safe_in {P} (par : ops P Z) content B (neg : Prop) I : Tame par content INT32_MAX True neg I -> (forall p, I p -> o_pos par p <= B) -> Firm par I -> forall fuel n p, B + 1 < Z.of_nat fuel -> B + 2 < Z.of_nat n -> I p ->
  exists a, sdf_new p = Ret a /\ ends_at True (sdf_provider par fuel) (within INT32_MAX) (entry_good (sdf_provider par fuel) True INT32_MAX B) (sdf_in I) n a.
Proof.
  intros HT HB HF fuel n p Hf Hn HI. destruct sdf_kmp as (k & Ek & Hk). unfold sdf_new. rewrite Ek. cbn [bind]. eexists. split; [reflexivity|].
  assert (forall hay, KmpSpec.bytes hay -> exists r, search k hay = Ret r /\ match r with Some j => 0 <= j < zlen hay | None => True end) as Hk'.
  { intros hay Hh. destruct (Hk hay Hh) as (r & E & Hr). exists r. split; [exact E|]. destruct r as [j|]; [|exact Logic.I]. destruct Hr as ((H1 & H2 & _) & _). change (zlen SdfSpec.delim) with 4 in H2. lia. }
  eapply (ends_inv2_at True (sdf_provider par fuel) (within INT32_MAX) _ (sdI par B I k)); [|split; [exact HI|]; right; cbn [sd_st sd_kmp sd_cur sd_prev]; split; [reflexivity|]; split; [reflexivity|]; split; [exact HI|]; split; reflexivity|exact Hn].
  intros st b Hst. split; [apply (sdI_nonneg par content B neg I HT HB fuel k st b Hst)|apply (sdf_next_safe par content B neg I HT HB HF fuel Hf k Hk' st b Hst)].
Qed.
Theorem sdf_safe {P} (par : ops P Z) full (neg : Prop) I : Tame par (Some full) INT32_MAX True neg I -> Firm par I -> forall fuel n p, zlen full + 1 < Z.of_nat fuel -> zlen full + 2 < Z.of_nat n -> I p ->
  exists a, sdf_new p = Ret a /\ ends True (sdf_provider par fuel) (within INT32_MAX) n a.
Proof.
  intros HT HF fuel n p Hf Hn HI. destruct (sdf_safe_in par (Some full) (zlen full) neg I HT (in_bound _ _ _ _ _ _ HT) HF fuel n p Hf Hn HI) as (a & E & H). exists a. split; [exact E|]. eapply ends_at_ends; exact H.
Qed.
