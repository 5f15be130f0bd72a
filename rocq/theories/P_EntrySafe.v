(** The stream of an entry of an archive of arbitrary bytes: every call returns, positions and data are consistent as long as the stream has not failed. *)
From Verif Require Import Base StreamSpec P_Stream M_StringStream M_Buffered BufferedSpec M_Sub ArchiveSpec P_Buffered P_Tame P_TameBuf.

(** one call on a stream at [pos] with status [st] *)
Definition step_ok (pos : Z) (st : status) (c : call) (ob : obs Z) : Prop :=
  match c with
  | Read mn mx => -2 <= ob_ret ob <= INT32_MAX /\ zlen (ob_data ob) = Z.max 0 (ob_ret ob) /\ Forall (fun c => 0 <= c < 256) (ob_data ob) /\
      (ob_st ob = Error -> ob_ret ob < 0) /\ (ob_st ob <> Error -> ob_pos ob = pos + Z.max 0 (ob_ret ob)) /\
      (mn <= mx -> ob_ret ob <= mx) /\ (mn <= mx \/ mx <= 0 -> ob_ret ob < mn -> ob_st ob <> Ok) /\ (st = Eof -> ob_ret ob < 0)
  | Skip n => ob_ret ob <= n /\ (ob_st ob <> Error -> ob_pos ob = pos + Z.max 0 (ob_ret ob)) /\ (st = Eof -> ob_ret ob <= 0)
  | Reset q => (ob_st ob = Error -> ob_ret ob < 0) /\
      (ob_st ob <> Error -> (ob_ret ob < 0 /\ ob_pos ob = pos \/ ob_ret ob = ob_pos ob /\ Z.min q pos <= ob_ret ob <= Z.max q pos) /\ (st = Eof -> ob_st ob = Ok -> q <= ob_pos ob))
  end.
(** resets go at most to [bq], positions are at most [b] *)
Record EntryOK {X} (e : ops X Z) (cr : Prop) (lim bq b : Z) (J : X -> Prop) : Prop := {
  en_pos : forall x, J x -> o_status e x <> Error -> 0 <= o_pos e x <= b /\ o_pos e x <= bq;
  en_step : forall x c, J x -> o_status e x <> Error -> any_call lim c -> (match c with Reset q => q <= bq | _ => True end) ->
    safe cr (exec e x c) (fun '(x', ob) => J x' /\ ob_pos ob = o_pos e x' /\ ob_st ob = o_status e x' /\ step_ok (o_pos e x) (o_status e x) c ob) }.
(** the entry of a provider *)
Definition entry_good {St} (pv : provider St) (cr : Prop) (lim b : Z) (i : info) (st : St) : Prop :=
  exists X (e : ops X Z) x0 J (wrap : X -> St) bq,
    (forall h, pv_entry pv st h = let* (x, obs) := run e x0 h in Ret (wrap x, obs)) /\
    J x0 /\ o_pos e x0 = 0 /\ o_status e x0 = Ok /\ EntryOK e cr lim bq b J /\ (i_size i < 0 \/ bq <= i_size i) /\ 0 <= bq.

(** ** substreams *)
Section Sub.
Context {P : Type}.
Variables (par : ops P Z) (content : option (list Z)) (lim : Z) (cr neg : Prop) (I : P -> Prop).
Hypothesis HT : Tame par content lim cr neg I.
Hypothesis HF : Firm par I.
Hypothesis Hlim : 0 <= lim <= INT32_MAX.
Variable B : Z.
Hypothesis HB : forall p, I p -> o_pos par p <= B.
Variables (off size : Z).
Hypothesis Hoff : 0 <= off.
Hypothesis Hsize : 0 <= size < 4294967296.
Definition sJ (s : sub P) : Prop := sub_I par I off size s /\ (su_st s = Eof -> su_pos s = size \/ o_status par (su_par s) = Eof).
Lemma sub_read_step s mn mx : sJ s -> su_st s <> Error -> 1 <= mn <= lim -> INT32_MIN <= mx <= INT32_MAX ->
  safe cr (sub_read par s mn mx) (fun '(s', n, d) => sJ s' /\ step_ok (su_pos s) (su_st s) (Read mn mx) (observe (sub_ops par) s' n d)).
Proof.
  intros (HI & HE) Hst Hmn Hmx. pose proof (sub_read_tame par content lim cr neg I HT Hlim off size Hsize s mn mx HI Hst Hmn Hmx) as R.
  assert (forall s' n d, sub_read par s mn mx = Ret (s', n, d) -> (su_st s' = Error -> n < 0) /\ (mn <= mx -> n <= mx) /\ (su_st s' = Eof -> su_pos s' = size \/ o_status par (su_par s') = Eof) /\ (su_st s = Eof -> n < 0)) as A.
  { destruct HI as (H1 & H2 & H3 & H4 & H5 & H6). destruct (H6 Hst) as (H7 & H8). intros s' n d E. unfold sub_read in E. rewrite H3 in E. destruct (Z.eqb_spec size (-1)) as [?|Hne]; [lia|].
    destruct (Z.eqb_spec (size - su_pos s) 0) as [E0|E0].
    { assert (s' = mkSub (su_par s) (su_off s) size (su_pos s) Eof /\ n = -1) as (-> & ->) by (split; congruence). cbn. split; [congruence|]. split; [lia|]. split; [intros _; left; lia|lia]. }
    set (lft := size - su_pos s) in *. set (mn' := if lft <? mn then wrap32 lft else mn) in *.
    assert (1 <= mn' <= mn /\ mn' <= lft /\ (mn' = mn \/ mn' = lft)) as Hmn'.
    { unfold mn'. destruct (Z.ltb_spec lft mn); [rewrite wrap32_id by (unfold INT32_MIN, INT32_MAX in *; lia)|]; unfold lft in *; lia. }
    set (mx' := if (mx <? mn') || (lft <? mx) then wrap32 lft else mx) in *.
    assert (mn <= mx -> mn' <= mx' <= mx) as Hmx'.
    { intros L. unfold mx'. destruct (Z.ltb_spec mx mn'), (Z.ltb_spec lft mx); cbn [orb]; try lia. rewrite wrap32_id by (unfold INT32_MIN, INT32_MAX in *; lia). lia. }
    assert (INT32_MIN <= mx' <= INT32_MAX) as Hmxr by (unfold mx'; destruct (_ || _); [apply wrap32_range|exact Hmx]).
    clearbody mx' mn'. unfold sub_read_body in E.
    pose proof (tm_read _ _ _ _ _ _ HT (su_par s) mn' mx' H1 ltac:(unfold INT32_MIN, INT32_MAX in *; lia) ltac:(lia) Hmxr) as T.
    destruct (o_read par (su_par s) mn' mx') as [((p & m) & dd)| | |] eqn:Er; cbn [bind safe] in *; try discriminate. destruct T as (T1 & T2 & T3 & T4 & T5 & T6 & T7 & T8 & T9).
    assert (su_st s = Eof -> m < 0) as Hm. { intros Q. destruct (HE Q) as [Q2|Q2]; [unfold lft in *; lia|]. exact (proj1 (fi_eof _ _ HF _ H1 Q2) _ _ _ _ _ Er). }
    destruct (Z.ltb_spec mx' mn'), (Z.leb_spec m mx'); cbn [orb negb] in E; try discriminate; rewrite H3 in E.
    all: destruct (Z.ltb_spec m (-1)); [assert (su_st s' = Error /\ n = m) as (-> & ->) by (split; [injection E as <- _ _; reflexivity|congruence]); split; [lia|]; split; [lia|]; split; [congruence|lia]|].
    all: destruct (Z.eqb_spec size (-1)); [lia|].
    all: destruct (Z.ltb_spec m mn'); [assert (su_st s' = Error /\ n = -2) as (-> & ->) by (split; [injection E as <- _ _; reflexivity|congruence]); split; [lia|]; split; [lia|]; split; [congruence|lia]|].
    all: assert (s' = mkSub p (su_off s) size (su_pos s + m) (if su_pos s + m =? size then Eof else su_st s) /\ n = m) as (-> & ->) by (split; congruence); cbn [su_st su_pos su_par].
    all: split; [destruct (_ =? _); congruence|]; split; [intros L; specialize (Hmx' L); lia|]; split; [|exact Hm].
    all: destruct (Z.eqb_spec (su_pos s + m) size) as [Q|Q]; [auto|]; intros Hs; specialize (Hm Hs); lia. }
  destruct (sub_read par s mn mx) as [((s' & n) & d)| | |]; cbn [safe] in *; try exact R. destruct R as (R1 & R2 & R3 & R4 & R5 & R6). destruct (A s' n d eq_refl) as (A1 & A2 & A3 & A4).
  split; [split; assumption|]. cbn [step_ok observe ob_ret ob_data ob_pos ob_st sub_ops o_pos o_status]. do 4 (split; [assumption|]). split; [intros _; exact R5|]. split; [exact A2|]. split; [intros _; exact R6|exact A4].
Qed.
Lemma sub_skip_step s n : sJ s -> su_st s <> Error -> 0 <= n < 4294967296 ->
  safe cr (sub_skip par s n) (fun '(s', k) => sJ s' /\ step_ok (su_pos s) (su_st s) (Skip n) (observe (sub_ops par) s' k [])).
Proof.
  intros (HI & HE) Hst Hn. pose proof (sub_skip_tame par content lim cr neg I HT off size Hsize s n HI Hst Hn) as R.
  assert (forall s' k, sub_skip par s n = Ret (s', k) -> k <= n /\ (su_st s' <> Error -> su_pos s' = su_pos s + Z.max 0 k) /\ (su_st s = Eof -> k <= 0) /\ (su_st s' = Eof -> su_pos s' = size \/ o_status par (su_par s') = Eof)) as A.
  { destruct HI as (H1 & H2 & H3 & H4 & H5 & H6). destruct (H6 Hst) as (H7 & H8). intros s' k E. unfold sub_skip in E. rewrite H3 in E.
    destruct (Z.eqb_spec size (su_pos s)) as [E0|E0].
    { assert (s' = mkSub (su_par s) (su_off s) size (su_pos s) Eof /\ k = -1) as (-> & ->) by (split; congruence). cbn. split; [lia|]. split; [intros _; lia|]. split; [lia|]. intros _; left; lia. }
    destruct (Z.eqb_spec n 0) as [En|En]. { assert (s' = s /\ k = 0) as (-> & ->) by (split; congruence). split; [lia|]. split; [intros _; lia|]. split; [lia|exact HE]. }
    set (nt := if _ && _ then size - su_pos s else n) in *. assert (1 <= nt <= n /\ nt <= size - su_pos s) as Hnt.
    { unfold nt. destruct (Z.eqb_spec size (-1)); [lia|]. cbn [negb andb]. destruct (Z.ltb_spec (size - su_pos s) n); lia. }
    clearbody nt. pose proof (tm_skip _ _ _ _ _ _ HT (su_par s) nt H1 ltac:(left; lia)) as T.
    destruct (o_skip par (su_par s) nt) as [(p & m)| | |] eqn:Er; cbn [bind safe] in *; try discriminate. destruct T as (T1 & T2 & T3 & T4 & _). specialize (T4 ltac:(lia)).
    assert (su_st s = Eof -> m <= 0) as Hm. { intros Q. destruct (HE Q) as [Q2|Q2]; [lia|]. exact (proj2 (fi_eof _ _ HF _ H1 Q2) nt p m ltac:(lia) Er). }
    destruct (is_error (o_status par p)) eqn:Ee.
    { assert (s' = mkSub p (su_off s) size (su_pos s) Error /\ k = m) as (-> & ->) by (split; congruence). cbn. split; [lia|]. split; [congruence|]. split; [exact Hm|congruence]. }
    cbv zeta in E. destruct (Z.eqb_spec (su_pos s + m) size) as [Q|Q].
    { assert (s' = mkSub p (su_off s) size (su_pos s + m) Eof /\ k = m) as (-> & ->) by (split; congruence). cbn. split; [lia|]. split; [intros _; lia|]. split; [exact Hm|auto]. }
    destruct (Z.leb_spec m 0).
    { assert (s' = mkSub p (su_off s) size (su_pos s + m) Error /\ k = -2) as (-> & ->) by (split; congruence). cbn. split; [lia|]. split; [congruence|]. split; [lia|congruence]. }
    assert (s' = mkSub p (su_off s) size (su_pos s + m) (su_st s) /\ k = m) as (-> & ->) by (split; congruence). cbn. split; [lia|]. split; [intros _; lia|]. split; [exact Hm|]. intros Hs; specialize (Hm Hs); lia. }
  destruct (sub_skip par s n) as [(s' & k)| | |]; cbn [safe] in *; try exact R. destruct R as (R1 & R2). destruct (A s' k eq_refl) as (A1 & A2 & A3 & A4).
  split; [split; assumption|]. cbn [step_ok observe ob_ret ob_data ob_pos ob_st sub_ops o_pos o_status]. auto.
Qed.
Lemma sub_reset_step s q : sJ s -> su_st s <> Error -> 0 <= q <= size ->
  safe cr (sub_reset par s q) (fun '(s', r) => sJ s' /\ step_ok (su_pos s) (su_st s) (Reset q) (observe (sub_ops par) s' r [])).
Proof.
  intros (HI & HE) Hst Hq. pose proof (sub_reset_tame par content lim cr neg I HT off size Hoff Hsize s q HI Hst ltac:(left; lia)) as R.
  assert (forall s' r, sub_reset par s q = Ret (s', r) -> step_ok (su_pos s) (su_st s) (Reset q) (observe (sub_ops par) s' r []) /\ (su_st s' = Eof -> su_pos s' = size \/ o_status par (su_par s') = Eof)) as A.
  { destruct HI as (H1 & H2 & H3 & H4 & H5 & H6). destruct (H6 Hst) as (H7 & H8). intros s' r E. unfold sub_reset in E. destruct (Z.ltb_spec q 0); [lia|].
    pose proof (tm_reset _ _ _ _ _ _ HT (su_par s) (q + su_off s) H1 ltac:(lia)) as T.
    destruct (o_reset par (su_par s) (q + su_off s)) as [(p & m)| | |] eqn:Er; cbn [bind safe] in *; try discriminate. destruct T as (T1 & T2).
    destruct (fi_reset _ _ HF _ (q + su_off s) p m H1 ltac:(lia) Er) as (_ & F2 & F3). rewrite H2 in *.
    cbn [step_ok observe ob_ret ob_data ob_pos ob_st sub_ops o_pos o_status].
    destruct (Z.ltb_spec m off).
    { assert (s' = mkSub p off (su_size s) m Error /\ r = m) as (-> & ->) by (split; congruence). cbn. split; [|congruence]. split; [lia|congruence]. }
    assert (s' = mkSub p off (su_size s) (m - off) (o_status par p) /\ r = m - off) as (-> & ->) by (split; congruence). cbn.
    assert (m = o_pos par p /\ Z.min (q + off) (o_pos par (su_par s)) <= m <= Z.max (q + off) (o_pos par (su_par s))) as (T3 & T4) by (destruct T2 as [T2|T2]; [lia|exact T2]).
    split; [|auto]. split; [intros Q; specialize (F3 Q); lia|]. intros _. split; [right; lia|]. intros Q1 Q2. destruct (HE Q1) as [Q3|Q3]; [lia|]. specialize (F2 Q3 Q2). lia. }
  destruct (sub_reset par s q) as [(s' & r)| | |]; cbn [safe] in *; try exact R. destruct (A s' r eq_refl) as (A1 & A2). split; [split; assumption|exact A1].
Qed.
Lemma sub_entry_ok : EntryOK (sub_ops par) cr lim size B sJ.
Proof.
  split.
  - intros s (H & _) Hs. destruct H as (H1 & H2 & H3 & H4 & H5 & H6). destruct (H6 Hs). pose proof (HB _ H1). cbn [sub_ops o_pos]. lia.
  - intros s c HJ Hs Hc Hr. destruct c as [mn mx|n|q]; cbn [exec sub_ops o_read o_skip o_reset any_call] in *.
    + eapply safe_bind; [apply sub_read_step; [exact HJ|exact Hs|lia|lia]|]. intros ((s' & n) & d) (R1 & R2). cbn [safe]. split; [exact R1|]. split; [reflexivity|]. split; [reflexivity|exact R2].
    + eapply safe_bind; [apply sub_skip_step; [exact HJ|exact Hs|unfold INT32_MAX in *; lia]|]. intros (s' & k) (R1 & R2). cbn [safe]. split; [exact R1|]. split; [reflexivity|]. split; [reflexivity|exact R2].
    + eapply safe_bind; [apply sub_reset_step; [exact HJ|exact Hs|lia]|]. intros (s' & k) (R1 & R2). cbn [safe]. split; [exact R1|]. split; [reflexivity|]. split; [reflexivity|exact R2].
Qed.
Lemma sub_good {St} (pv : provider St) i st s (wrap : sub P -> St) : (forall h, pv_entry pv st h = let* (x, obs) := run (sub_ops par) s h in Ret (wrap x, obs)) ->
  sub_I par I off size s -> su_st s = Ok -> su_pos s = 0 -> i_size i = size -> entry_good pv cr lim B i st.
Proof.
  intros Hpv HS Hs Hp Hi. exists (sub P), (sub_ops par), s, sJ, wrap, size. split; [exact Hpv|]. split; [split; [exact HS|congruence]|]. split; [exact Hp|]. split; [exact Hs|]. split; [exact sub_entry_ok|]. split; [right; lia|lia].
Qed.
End Sub.

(** ** streams that are tame themselves *)
Lemma tame_entry_ok {X} (e : ops X Z) cr lim neg J b : Tame e None lim cr neg J -> Firm e J -> 0 <= lim <= INT32_MAX -> (forall x, J x -> o_pos e x <= b) ->
  (forall x mn mx x' n d, J x -> o_read e x mn mx = Ret (x', n, d) -> o_status e x' = Error -> n < 0) -> EntryOK e cr lim b b J.
Proof.
  intros HT HF Hl Hb Hr. split.
  - intros x HJ _. destruct (tm_pos _ _ _ _ _ _ HT x HJ) as (H & _). pose proof (Hb x HJ). lia.
  - intros x c HJ Hs Hc Hq. destruct c as [mn mx|n|q]; cbn [exec any_call] in *.
    + pose proof (tm_read _ _ _ _ _ _ HT x mn mx HJ ltac:(unfold INT32_MIN; lia) ltac:(lia) ltac:(lia)) as T.
      destruct (o_read e x mn mx) as [((x' & n) & d)| | |] eqn:Er; cbn [bind safe] in *; try exact T. destruct T as (T1 & T2 & T3 & T4 & T5 & T6 & T7 & T8 & T9).
      pose proof (fi_read _ _ HF _ mn mx x' n d HJ ltac:(unfold INT32_MIN; lia) ltac:(lia) Er) as F1. pose proof (fun Q => proj1 (fi_eof _ _ HF _ HJ Q) _ _ _ _ _ Er) as F2. pose proof (Hr _ _ _ _ _ _ HJ Er) as F3.
      split; [exact T1|]. split; [reflexivity|]. split; [reflexivity|]. cbn [step_ok observe ob_ret ob_data ob_pos ob_st]. split; [exact T2|]. split; [exact T3|]. split; [exact T4|]. split; [exact F3|].
      split; [intros Q; destruct (Z.le_gt_cases 0 n) as [L|L]; [rewrite T7 by lia; lia|destruct (F1 L) as [F|F]; [congruence|lia]]|]. split; [intros L; apply T8; lia|]. split; [intros L; apply T9; lia|exact F2].
    + pose proof (tm_skip _ _ _ _ _ _ HT x n HJ ltac:(left; unfold INT32_MAX in *; lia)) as T.
      destruct (o_skip e x n) as [(x' & k)| | |] eqn:Er; cbn [bind safe] in *; try exact T. destruct T as (T1 & T2 & T3 & T4 & _).
      split; [exact T1|]. split; [reflexivity|]. split; [reflexivity|]. cbn [step_ok observe ob_ret ob_data ob_pos ob_st]. split; [apply T4; lia|]. split; [exact T3|]. intros Q. exact (proj2 (fi_eof _ _ HF _ HJ Q) n x' k ltac:(lia) Er).
    + pose proof (tm_reset _ _ _ _ _ _ HT x q HJ ltac:(lia)) as T.
      destruct (o_reset e x q) as [(x' & r)| | |] eqn:Er; cbn [bind safe] in *; try exact T. destruct T as (T1 & T2). destruct (fi_reset _ _ HF _ q x' r HJ ltac:(lia) Er) as (F1 & F2 & F3).
      split; [exact T1|]. split; [reflexivity|]. split; [reflexivity|]. cbn [step_ok observe ob_ret ob_data ob_pos ob_st]. split; [exact F3|]. intros _. split; [exact T2|exact F2].
Qed.

(** the two kinds of streams *)
Lemma ss_firm full : zlen full <= INT32_MAX -> Forall (fun c => 0 <= c < 256) full -> Firm ss_ops (ss_I full).
Proof.
  intros Hl Hb. split.
  - intros p mn mx p' n d HI H1 H2 E Hn. destruct (ss_read_tame full Hl Hb p mn mx HI) as (s' & n' & d' & E' & R1 & R2 & R3 & R4 & R5 & R6 & _).
    cbn [ss_ops o_read o_pos o_status] in *. rewrite E' in E. injection E as -> -> ->. right. rewrite R6. lia.
  - intros p q p' r (H1 & H2 & H3 & H4) Hq E. cbn [ss_ops o_reset o_pos o_status] in *. destruct H4 as (H4 & H5). split; [congruence|]. unfold ss_reset in E. destruct (Z.ltb_spec q 0); [lia|].
    destruct (Z.ltb_spec q (ss_size p)); cbv zeta in E; injection E as E _; subst p'; cbn [ss_pos ss_st] in *; (split; [intros _ Hp; first [lia|discriminate]|discriminate]).
  - intros p HI He. pose proof HI as (H1 & H2 & H3 & H4 & H5). specialize (H5 He). cbn [ss_ops o_read o_skip]. split.
    + intros mn mx p' n d E. unfold ss_read in E. rewrite H1, H2, H5 in E. replace (zlen full - zlen full) with 0 in E by lia. cbn [Z.eqb] in E. injection E as _ <- _. lia.
    + intros n p' k _ E. unfold ss_skip in E. destruct (n =? 0); [injection E as _ <-; lia|]. unfold ss_read in E. rewrite H1, H2, H5 in E. replace (zlen full - zlen full) with 0 in E by lia. cbn [Z.eqb bind] in E. injection E as _ <-. lia.
Qed.
Lemma bs_skip_eof {S} (src : source S Z) x n x' k : bs_st x = Eof -> 0 <= n -> o_skip (bs_ops src) x n = Ret (x', k) -> k <= 0.
Proof.
  intros He Hn E. cbn [bs_ops o_skip] in E. rewrite bs_skip_nonneg in E by exact Hn.
  destruct (Z.to_nat n) as [|f]; cbn [bs_skip_loop] in E; destruct (n =? 0); try discriminate; try (injection E as _ <-; lia).
  unfold bs_read in E. rewrite He in E. cbn [bind] in E. cbn in E. injection E as _ <-. lia.
Qed.
Lemma bs_firm {S} (src : source S Z) content cap (J : bool -> S -> Z -> nat -> Prop) (K : S -> Prop) (cr : Prop) : cr -> TameSrc src content cap cr J K -> Firm (bs_ops src) (tI content cap J K).
Proof.
  intros Hcr HS. split.
  - intros p mn mx p' n d HI H1 H2 E Hn. cbn [bs_ops o_read o_pos o_status] in *.
    pose proof (bs_read_tame src content cap cr J K HS INT32_MAX (conj (Z.le_refl _) (or_intror Hcr)) p mn mx HI H1 ltac:(lia) H2) as T.
    rewrite E in T. cbn [safe] in T. destruct T as (T1 & T2 & T3 & T4 & T5 & T6 & T7 & T8 & T9 & T10 & _).
    destruct (bs_st p') eqn:Es; [right; rewrite T10 by congruence; lia|right; rewrite T10 by congruence; lia|left; reflexivity].
  - intros p q p' r HI Hq E. cbn [bs_ops o_reset o_pos o_status] in *. unfold bs_reset in E. destruct (Z.ltb_spec q 0); [lia|].
    destruct (bs_st p) eqn:Es.
    + split; [congruence|]. split; [congruence|]. intros Hp. cbv zeta in E. destruct (_ && _); [exfalso; injection E as E _; subst p'; discriminate Hp|]. assert (p = p') as <- by congruence. congruence.
    + split; [congruence|]. split; [|intros Hp; cbv zeta in E; destruct (_ && _); [exfalso; injection E as E _; subst p'; discriminate Hp|]; assert (p = p') as <- by congruence; congruence].
      intros _ Hp. cbv zeta in E. destruct (_ && _); [|congruence].
      assert (bs_pos p' = bs_pos p - (bs_pos p - q)) as -> by (injection E; intros _ <-; reflexivity). lia.
    + assert (p = p' /\ r = -2) as (<- & ->) by (split; congruence). split; [intros _; split; [lia|exact Es]|]. split; [congruence|lia].
  - intros p HI He. split; [intros mn mx p' n d E; cbn [bs_ops o_read o_status] in *; unfold bs_read in E; rewrite He in E; injection E as _ <- _; lia|].
    intros n p' k Hn E. exact (bs_skip_eof src p n p' k He Hn E).
Qed.
Lemma bs_read_noerr {S} (src : source S Z) x mn mx x' n d : o_read (bs_ops src) x mn mx = Ret (x', n, d) -> o_status (bs_ops src) x' = Error -> n < 0.
Proof.
  cbn [bs_ops o_read o_status]. unfold bs_read. intros E Hs. destruct (bs_st x) eqn:Es; [|injection E as _ <- _; lia|injection E as _ <- _; lia].
  match type of E with bind ?a _ = _ => destruct a as [x1| | |] end; cbn [bind] in E; try discriminate.
  destruct (bs_st x1) eqn:E1; cbn [is_error] in E; [| |injection E as _ <- _; lia].
  all: destruct (buf_read (bs_buf x1) _) as [((b & m) & dd)| | |]; cbn [bind] in E; try discriminate.
  all: destruct ((_ <? _) && _); [injection E as _ <- _; lia|].
  all: destruct (_ && _ && _); injection E as <- <- _; cbn in Hs; congruence.
Qed.
