(** Safety of streams (ArchiveSpec.v Tame): StringStream and substreams. *)
From Verif Require Import Base StreamSpec P_Stream M_StringStream M_Sub ArchiveSpec.

Lemma safe_bind {A B} cr (x : out A) (f : A -> out B) (Q : A -> Prop) (R : B -> Prop) :
  safe cr x Q -> (forall a, Q a -> safe cr (f a) R) -> safe cr (bind x f) R.
Proof. destruct x; cbn; intros H1 H2; auto. Qed.
Lemma safe_impl {A} (cr cr' : Prop) (x : out A) (Q R : A -> Prop) : safe cr x Q -> (cr -> cr') -> (forall a, Q a -> R a) -> safe cr' x R.
Proof. destruct x; cbn; intros H1 H2 H3; auto. Qed.
Lemma safe_ret {A} cr (x : out A) (Q : A -> Prop) : ~ cr -> safe cr x Q -> exists a, x = Ret a /\ Q a.
Proof. destruct x; cbn; intros H1 H2; try contradiction. eauto. Qed.
Lemma wrap32_range z : INT32_MIN <= wrap32 z <= INT32_MAX.
Proof. unfold wrap32, INT32_MIN, INT32_MAX. pose proof (Z.mod_pos_bound z 4294967296 ltac:(lia)). destruct (Z.ltb_spec (z mod 4294967296) 2147483648); lia. Qed.
Lemma wrap32_high z : 2147483648 <= z < 4294967296 -> wrap32 z < 0.
Proof. intros H. unfold wrap32. rewrite Z.mod_small by lia. destruct (Z.ltb_spec z 2147483648); lia. Qed.
Lemma Forall_slice {A} (Q : A -> Prop) l o n : Forall Q l -> Forall Q (slice l o n).
Proof.
  intros H. unfold slice. rewrite Forall_forall in *. intros x Hx. apply H.
  rewrite <- (firstn_skipn (Z.to_nat o) l). apply in_or_app. right.
  rewrite <- (firstn_skipn (Z.to_nat n) (skipn (Z.to_nat o) l)). apply in_or_app. left. exact Hx.
Qed.

(** ** a StringStream of any bytes *)
Section SS.
Variable full : list Z.
Hypothesis Hlen : zlen full <= INT32_MAX.
Hypothesis Hbytes : Forall (fun c => 0 <= c < 256) full.
Definition ss_I (s : sstream Z) : Prop := ss_data s = full /\ ss_size s = zlen full /\ 0 <= ss_pos s <= zlen full /\ ss_st s <> Error /\ (ss_st s = Eof -> ss_pos s = zlen full).
Lemma ss_read_tame s mn mx : ss_I s -> exists s' n d, ss_read s mn mx = Ret (s', n, d) /\ ss_I s' /\ -1 <= n <= INT32_MAX /\ zlen d = Z.max 0 n /\
  Forall (fun c => 0 <= c < 256) d /\ d = slice full (ss_pos s) (zlen d) /\ ss_pos s' = ss_pos s + Z.max 0 n /\ n <> 0 /\
  (1 <= mx -> n <= mx) /\ (mx < 1 \/ n < mx -> ss_st s' = Eof) /\ (n < 0 -> ss_pos s' = zlen full).
Proof.
  intros (H1 & H2 & H3 & H4 & H5). unfold ss_read. rewrite H1, H2. unfold INT32_MAX in *.
  destruct (Z.eqb_spec (zlen full - ss_pos s) 0) as [E|E].
  - do 3 eexists; split; [reflexivity|]. unfold ss_I. cbn [ss_data ss_size ss_pos ss_st]. change (zlen (@nil Z)) with 0.
    split; [split; [reflexivity|split; [reflexivity|split; [lia|split; [congruence|intros _; lia]]]]|]. split; [lia|]. split; [lia|]. split; [constructor|]. split; [rewrite slice_0; reflexivity|]. split; [lia|]. split; [lia|]. split; [lia|]. split; [reflexivity|lia].
  - match goal with |- context [if ?c then wrap32 ?l else mx] => set (n := if c then wrap32 l else mx) end. assert (1 <= n <= zlen full - ss_pos s /\ (1 <= mx -> n <= mx) /\ (mx < 1 \/ n < mx -> n = zlen full - ss_pos s)) as (N1 & N2 & N3).
    { unfold n. destruct (Z.ltb_spec (zlen full - ss_pos s) mx), (Z.ltb_spec mx 1); cbn [orb]; rewrite ?wrap32_id by (unfold INT32_MIN, INT32_MAX; lia); lia. }
    clearbody n. replace ((0 <=? ss_pos s) && (0 <=? n) && (ss_pos s + n <=? zlen full)) with true by (symmetry; rewrite !andb_true_iff, !Z.leb_le; lia).
    do 3 eexists; split; [reflexivity|]. unfold ss_I. cbn [ss_data ss_size ss_pos ss_st].
    assert (zlen (slice full (ss_pos s) n) = n) as Zl by (apply zlen_slice; lia). rewrite Zl.
    split; [split; [reflexivity|split; [reflexivity|split; [lia|split; [destruct (_ =? _); congruence|destruct (Z.eqb_spec (ss_pos s + n) (zlen full)); [auto|intros Q; destruct (H5 Q); lia]]]]]|]. split; [lia|]. split; [lia|].
    split; [apply Forall_slice; exact Hbytes|]. split; [reflexivity|]. split; [lia|]. split; [lia|]. split; [lia|].
    split; [|lia]. intros H. specialize (N3 H). destruct (Z.eqb_spec (ss_pos s + n) (zlen full)); [reflexivity|lia].
Qed.
Lemma ss_tame cr : Tame ss_ops (Some full) INT32_MAX cr True ss_I.
Proof.
  split.
  - intros p (H1 & H2 & H3 & H4). cbn [ss_ops o_pos in_content]. lia.
  - intros p mn mx HI Hmn _ Hmx. destruct (ss_read_tame p mn mx HI) as (s' & n & d & E & R1 & R2 & R3 & R4 & R5 & R6 & R7 & R8 & R9 & R10).
    cbn [ss_ops o_read o_pos o_status]. rewrite E. cbn [safe data_at]. split; [exact R1|]. split; [lia|]. split; [exact R3|]. split; [exact R4|]. split; [exact R5|].
    split; [lia|]. split; [lia|]. split; [lia|]. intros H1 [H2|H2] H3; rewrite R9 by lia; congruence.
  - intros p n HI _. cbn [ss_ops o_skip o_pos o_status]. unfold ss_skip. destruct (Z.eqb_spec n 0) as [->|N0].
    + cbn [safe]. split; [exact HI|]. lia.
    + destruct (ss_read_tame p (wrap32 n) (wrap32 n) HI) as (s' & k & d & E & R1 & R2 & R3 & R4 & R5 & R6 & R7 & R8 & R9 & R10). rewrite E. cbn [bind safe at_end].
      split; [exact R1|]. split; [lia|]. split; [lia|]. split; [|lia]. intros Hn. destruct (Z.le_gt_cases n INT32_MAX) as [L|L]; [|lia].
      rewrite wrap32_id in R8 by (unfold INT32_MIN; lia). lia.
  - intros p q (H1 & H2 & H3 & H4) Hq. cbn [ss_ops o_reset o_pos]. unfold ss_reset. cbn [safe]. rewrite H1, H2.
    destruct (Z.ltb_spec q 0); [lia|]. destruct (Z.ltb_spec q (zlen full)); cbn [ss_pos]; (split; [unfold ss_I; cbn; split; [reflexivity|]; split; [reflexivity|]; split; [lia|]; split; [congruence|first [congruence|intros _; reflexivity|intros _; lia]]|]); right; lia.
Qed.
Lemma ss_init_I : ss_I (mkSS full (zlen full) 0 Ok).
Proof. unfold ss_I; cbn. pose proof (zlen_nonneg full). split; [reflexivity|]. split; [reflexivity|]. split; [lia|]. split; congruence. Qed.
(** the position never exceeds the contents and read(0, 0) never returns 0 *)
Lemma ss_nonzero s s' n d : ss_I s -> ss_read s 0 0 = Ret (s', n, d) -> n <> 0.
Proof. intros HI E. destruct (ss_read_tame s 0 0 HI) as (s2 & n2 & d2 & E2 & _ & _ & _ & _ & _ & _ & R & _). congruence. Qed.
End SS.

(** ** substreams of a tame stream *)
Section Sub.
Context {P : Type}.
Variables (par : ops P Z) (content : option (list Z)) (lim : Z) (cr neg : Prop) (I : P -> Prop).
Hypothesis HT : Tame par content lim cr neg I.
Hypothesis Hlim : 0 <= lim <= INT32_MAX.
Variables (off size : Z).
Hypothesis Hoff : 0 <= off.
Hypothesis Hsize : 0 <= size < 4294967296.

Definition sub_I (s : sub P) : Prop :=
  I (su_par s) /\ su_off s = off /\ su_size s = size /\ off <= o_pos par (su_par s) /\ su_pos s <= size /\
  (su_st s <> Error -> 0 <= su_pos s /\ o_pos par (su_par s) = off + su_pos s).

Lemma sub_read_tame s mn mx : sub_I s -> su_st s <> Error -> 1 <= mn <= lim -> INT32_MIN <= mx <= INT32_MAX ->
  safe cr (sub_read par s mn mx) (fun '(s', n, d) => sub_I s' /\ -2 <= n <= INT32_MAX /\ zlen d = Z.max 0 n /\ Forall (fun c => 0 <= c < 256) d /\
    su_pos s' = su_pos s + Z.max 0 n /\ (n < mn -> su_st s' <> Ok)).
Proof.
  intros (H1 & H2 & H3 & H4 & H5 & H6) Hst Hmn Hmx. destruct (H6 Hst) as (H7 & H8). unfold sub_read. rewrite H3.
  destruct (Z.eqb_spec size (-1)) as [?|Hne]; [lia|].
  destruct (Z.eqb_spec (size - su_pos s) 0) as [E0|E0].
  { cbn [safe]. unfold sub_I. cbn [su_par su_off su_size su_pos su_st]. change (zlen (@nil Z)) with 0.
    split; [do 4 (split; [assumption||reflexivity|]); split; [lia|intros _; lia]|]. split; [unfold INT32_MAX; lia|]. split; [lia|]. split; [constructor|]. split; [lia|congruence]. }
  set (lft := size - su_pos s). set (mn' := if lft <? mn then wrap32 lft else mn).
  assert (1 <= mn' <= mn /\ mn' <= lft /\ (mn' = mn \/ mn' = lft)) as Hmn'.
  { unfold mn'. destruct (Z.ltb_spec lft mn); [rewrite wrap32_id by (unfold INT32_MIN, INT32_MAX in *; lia)|]; unfold lft in *; lia. }
  set (mx' := if (mx <? mn') || (lft <? mx) then wrap32 lft else mx).
  assert (INT32_MIN <= mx' <= INT32_MAX /\ (mn' <= mx' <= lft \/ mx' <= 0 /\ INT32_MAX <= lft)) as Hmx'.
  { unfold mx'. destruct (Z.ltb_spec mx mn'), (Z.ltb_spec lft mx); cbn [orb]; try (split; [assumption|lia]).
    all: split; [apply wrap32_range|]; destruct (Z.le_gt_cases lft INT32_MAX); [rewrite wrap32_id by (unfold INT32_MIN; lia); lia|].
    all: right; split; [|unfold INT32_MAX in *; lia]; assert (wrap32 lft < 0); [apply wrap32_high; unfold lft, INT32_MAX in *; lia|lia]. }
  clearbody mx' mn'. unfold sub_read_body. eapply safe_bind; [apply (tm_read _ _ _ _ _ _ HT); [exact H1|unfold INT32_MIN, INT32_MAX in *; lia|lia|lia]|].
  intros ((p & n) & d) (R1 & R2 & R3 & R4 & R5 & R6 & R7 & R8 & R9).
  destruct (Z.ltb_spec mx' mn'), (Z.leb_spec n mx'); cbn [orb negb]; try lia.
  all: destruct (Z.ltb_spec n (-1)).
  all: try (cbn [safe]; unfold sub_I; cbn [su_par su_off su_size su_pos su_st]; change (zlen (@nil Z)) with 0;
      split; [split; [exact R1|]; split; [exact H2|]; split; [exact H3|]; split; [lia|]; split; [lia|congruence]|]; split; [lia|]; split; [lia|]; split; [constructor|]; split; [lia|congruence]).
  all: destruct (Z.ltb_spec n mn').
  all: try (rewrite H3; destruct (Z.eqb_spec size (-1)); [lia|]; cbn [safe]; unfold sub_I; cbn [su_par su_off su_size su_pos su_st]; change (zlen (@nil Z)) with 0;
      split; [split; [exact R1|]; split; [exact H2|]; split; [reflexivity||exact H3|]; split; [lia|]; split; [lia|congruence]|]; split; [unfold INT32_MAX; lia|]; split; [lia|]; split; [constructor|]; split; [lia|congruence]).
  all: cbn [safe]; unfold sub_I; cbn [su_par su_off su_size su_pos su_st]; rewrite H3.
  all: assert (n <= lft) as Hnl by lia.
  all: split; [split; [exact R1|]; split; [exact H2|]; split; [reflexivity|]; split; [lia|]; split; [unfold lft in *; lia|]; intros _; split; [lia|]; rewrite R7 by lia; lia|].
  all: split; [lia|]; split; [exact R3|]; split; [exact R4|]; split; [lia|]; intros Hlt.
  all: destruct (Z.eqb_spec (su_pos s + n) size); [congruence|]; exfalso.
  all: unfold lft in *; lia.
Qed.
Lemma sub_skip_any s n : sub_I s -> 0 <= n < 4294967296 ->
  safe cr (sub_skip par s n) (fun '(s', _) => I (su_par s') /\ o_pos par (su_par s) <= o_pos par (su_par s')).
Proof.
  intros (H1 & H2 & H3 & H4 & H5 & H6) Hn. unfold sub_skip. rewrite H3.
  destruct (size =? su_pos s); [cbn [safe su_par]; split; [exact H1|lia]|]. destruct (n =? 0); [cbn [safe su_par]; split; [exact H1|lia]|].
  eapply safe_bind; [apply (tm_skip _ _ _ _ _ _ HT); [exact H1|left; destruct (_ && _) eqn:E; [|lia]]|].
  - apply andb_true_iff in E as (_ & E). apply Z.ltb_lt in E. lia.
  - intros (p & k) (R1 & R2 & R3 & R4 & _). destruct (is_error _); [cbn [safe su_par]; tauto|]. cbv zeta.
    destruct (_ =? size); [cbn [safe su_par]; tauto|]. destruct (k <=? 0); cbn [safe su_par]; tauto.
Qed.
Lemma sub_skip_tame s n : sub_I s -> su_st s <> Error -> 0 <= n < 4294967296 ->
  safe cr (sub_skip par s n) (fun '(s', k) => sub_I s' /\ (su_st s' = Ok -> n <> 0 -> su_pos s < su_pos s')).
Proof.
  intros (H1 & H2 & H3 & H4 & H5 & H6) Hst Hn. destruct (H6 Hst) as (H7 & H8). unfold sub_skip. rewrite H3.
  destruct (Z.eqb_spec size (su_pos s)) as [Es|Es].
  { cbn [safe]. unfold sub_I. cbn [su_par su_off su_size su_pos su_st]. split; [|congruence]. do 4 (split; [assumption||reflexivity|]). split; [lia|intros _; lia]. }
  destruct (Z.eqb_spec n 0) as [En|En].
  { cbn [safe]. split; [|congruence]. do 5 (split; [assumption|]). intros _; split; assumption. }
  set (nt := if _ && _ then size - su_pos s else n). assert (1 <= nt <= n /\ nt <= size - su_pos s) as Hnt.
  { unfold nt. destruct (Z.eqb_spec size (-1)); [lia|]. cbn [negb andb]. destruct (Z.ltb_spec (size - su_pos s) n); lia. }
  clearbody nt. eapply safe_bind; [apply (tm_skip _ _ _ _ _ _ HT (su_par s)); [exact H1|left; lia]|].
  intros (p & k) (R1 & R2 & R3 & R4 & _). specialize (R4 ltac:(lia)). 
  destruct (is_error (o_status par p)) eqn:Ee.
  { cbn [safe]. unfold sub_I. cbn [su_par su_off su_size su_pos su_st]. split; [|congruence]. split; [exact R1|]. split; [exact H2|]. split; [reflexivity|]. split; [lia|]. split; [lia|congruence]. }
  assert (o_status par p <> Error) as Hne by (intros Q; rewrite Q in Ee; discriminate). specialize (R3 Hne). cbv zeta.
  destruct (Z.eqb_spec (su_pos s + k) size).
  { cbn [safe]. unfold sub_I. cbn [su_par su_off su_size su_pos su_st]. split; [|congruence]. split; [exact R1|]. split; [exact H2|]. split; [reflexivity|]. split; [lia|]. split; [lia|]. intros _; lia. }
  destruct (Z.leb_spec k 0); cbn [safe]; unfold sub_I; cbn [su_par su_off su_size su_pos su_st].
  - split; [|congruence]. split; [exact R1|]. split; [exact H2|]. split; [reflexivity|]. split; [lia|]. split; [lia|]. congruence.
  - split; [|lia]. split; [exact R1|]. split; [exact H2|]. split; [reflexivity|]. split; [lia|]. split; [lia|]. intros _; lia.
Qed.
Lemma sub_reset_tame s q : sub_I s -> su_st s <> Error -> 0 <= q <= size \/ 0 <= q <= su_pos s ->
  safe cr (sub_reset par s q) (fun '(s', r) => sub_I s').
Proof.
  intros (H1 & H2 & H3 & H4 & H5 & H6) Hst Hq. destruct (H6 Hst) as (H7 & H8). unfold sub_reset. destruct (Z.ltb_spec q 0); [lia|].
  eapply safe_bind; [apply (tm_reset _ _ _ _ _ _ HT); [exact H1|lia]|]. intros (p & r) (R1 & R2). rewrite H2.
  destruct (Z.ltb_spec r off); cbn [safe]; unfold sub_I; cbn [su_par su_off su_size su_pos su_st].
  - split; [exact R1|]. split; [reflexivity|]. split; [exact H3|]. split; [lia|]. split; [lia|congruence].
  - destruct R2 as [R2|R2]; [lia|]. split; [exact R1|]. split; [reflexivity|]. split; [exact H3|]. split; [lia|]. split; [lia|]. intros _; lia.
Qed.
Lemma sub_exec_tame s c : sub_I s -> su_st s <> Error -> any_call lim c -> (match c with Reset p => p <= size | _ => True end) ->
  safe cr (exec (sub_ops par) s c) (fun '(s', ob) => sub_I s' /\ ob_st ob = su_st s').
Proof.
  intros HI Hst Hc Hr. destruct c as [mn mx|n|q]; cbn [exec sub_ops o_read o_skip o_reset any_call] in *.
  - eapply safe_bind; [apply sub_read_tame; [exact HI|exact Hst|lia|lia]|]. intros ((s' & n) & d) (R1 & _). cbn [safe]. split; [exact R1|reflexivity].
  - eapply safe_bind; [apply sub_skip_tame; [exact HI|exact Hst|unfold INT32_MAX in *; lia]|]. intros (s' & k) (R1 & _). cbn [safe]. split; [exact R1|reflexivity].
  - eapply safe_bind; [apply sub_reset_tame; [exact HI|exact Hst|lia]|]. intros (s' & k) R1. cbn [safe]. split; [exact R1|reflexivity].
Qed.
Lemma sub_run_tame i h : i_size i = size -> Forall (within lim i) h -> forall s, sub_I s -> su_st s <> Error ->
  safe cr (run (sub_ops par) s h) (fun '(s', _) => sub_I s').
Proof.
  intros Hi. induction 1 as [|c h Hc _ IH]; intros s HI Hst; cbn [run]; [exact HI|].
  destruct Hc as (Hc & Hr). eapply safe_bind; [apply sub_exec_tame; [exact HI|exact Hst|exact Hc|destruct c; lia]|].
  intros (s' & ob) (R1 & R2). rewrite R2. destruct (is_error (su_st s')) eqn:E; [exact R1|].
  eapply safe_bind; [apply IH; [exact R1|intros Q; rewrite Q in E; discriminate]|]. intros (s2 & obs) R. exact R.
Qed.
Lemma sub_new_tame p : I p -> off = o_pos par p -> safe cr (sub_new par p size) (fun s => sub_I s /\ su_st s = Ok /\ su_pos s = 0).
Proof.
  intros HI Hp. unfold sub_new. destruct (Z.ltb_spec size (-1)); [lia|]. cbn [safe]. unfold sub_I. cbn [su_par su_off su_size su_pos su_st]. split; [|split; reflexivity].
  split; [exact HI|]. split; [congruence|]. split; [reflexivity|]. split; [lia|]. split; [lia|]. intros _; lia.
Qed.
End Sub.

(** What is needed beyond Tame: failures are final, and at the end of the stream reset() either stays there or does what it was asked for. *)
Record Firm {P} (par : ops P Z) (I : P -> Prop) : Prop := {
  fi_read : forall p mn mx p' n d, I p -> INT32_MIN <= mn <= INT32_MAX -> INT32_MIN <= mx <= INT32_MAX -> o_read par p mn mx = Ret (p', n, d) -> n < 0 -> o_status par p' = Error \/ o_pos par p' = o_pos par p;
  fi_reset : forall p q p' r, I p -> 0 <= q -> o_reset par p q = Ret (p', r) ->
    (o_status par p = Error -> r < 0 /\ o_status par p' = Error) /\ (o_status par p = Eof -> o_status par p' = Ok -> q <= o_pos par p') /\ (o_status par p' = Error -> r < 0);
  fi_eof : forall p, I p -> o_status par p = Eof -> (forall mn mx p' n d, o_read par p mn mx = Ret (p', n, d) -> n < 0) /\ (forall n p' k, 0 <= n -> o_skip par p n = Ret (p', k) -> k <= 0) }.

(** ** iteration ends when a measure decreases *)
Lemma ends_inv {St} cr (pv : provider St) (C : info -> call -> Prop) (Inv : St -> Prop) (mu : St -> Z) :
  (forall st, Inv st -> 0 <= mu st /\ safe cr (pv_next pv st) (fun '(st1, r) => match r with None => True | Some i =>
     forall h, Forall (C i) h -> safe cr (pv_entry pv st1 h) (fun '(st2, _) => Inv st2 /\ mu st2 < mu st) end)) ->
  forall k st, Inv st -> mu st < Z.of_nat k -> ends cr pv C k st.
Proof.
  intros H. induction k as [|k IH]; intros st HI Hk; destruct (H st HI) as (Hm & Hs); [lia|]. cbn [ends].
  eapply safe_impl; [exact Hs|tauto|]. intros (st1 & [i|]); [|auto]. intros Hc h Hh. eapply safe_impl; [apply Hc; exact Hh|tauto|].
  intros (st2 & o) (I2 & M2). apply IH; [exact I2|lia].
Qed.

(** ** ... and when it ends, the states satisfies [Q] *)
Fixpoint ends_in {St} (crash : Prop) (pv : provider St) (C : info -> call -> Prop) (Q : St -> Prop) (k : nat) (st : St) : Prop :=
  match k with
  | O => False
  | S k' =>
      safe crash (pv_next pv st) (fun '(st1, r) =>
        match r with
        | None => Q st1
        | Some i => forall h, Forall (C i) h -> safe crash (pv_entry pv st1 h) (fun '(st2, _) => ends_in crash pv C Q k' st2)
        end)
  end.
Lemma ends_in_ends {St} cr (pv : provider St) C Q k : forall st, ends_in cr pv C Q k st -> ends cr pv C k st.
Proof.
  induction k as [|k IH]; intros st; cbn [ends ends_in]; [tauto|]. intros H. eapply safe_impl; [exact H|tauto|].
  intros (st1 & [i|]); [|auto]. intros Hc h Hh. eapply safe_impl; [apply Hc; exact Hh|tauto|]. intros (st2 & o). apply IH.
Qed.
Lemma ends_inv_in {St} cr (pv : provider St) (C : info -> call -> Prop) (Inv : St -> Prop) (Q : St -> Prop) (mu : St -> Z) :
  (forall st, Inv st -> 0 <= mu st /\ safe cr (pv_next pv st) (fun '(st1, r) => match r with None => Q st1 | Some i =>
     forall h, Forall (C i) h -> safe cr (pv_entry pv st1 h) (fun '(st2, _) => Inv st2 /\ mu st2 < mu st) end)) ->
  forall k st, Inv st -> mu st < Z.of_nat k -> ends_in cr pv C Q k st.
Proof.
  intros H. induction k as [|k IH]; intros st HI Hk; destruct (H st HI) as (Hm & Hs); [lia|]. cbn [ends_in].
  eapply safe_impl; [exact Hs|tauto|]. intros (st1 & [i|]); [|auto]. intros Hc h Hh. eapply safe_impl; [apply Hc; exact Hh|tauto|].
  intros (st2 & o) (I2 & M2). apply IH; [exact I2|lia].
Qed.
Lemma ends_inv2_in {St} cr (pv : provider St) (C : info -> call -> Prop) (Inv : St -> Z -> Prop) (Q : St -> Prop) :
  (forall st b, Inv st b -> 0 <= b /\ safe cr (pv_next pv st) (fun '(st1, r) => match r with None => Q st1 | Some i =>
     forall h, Forall (C i) h -> safe cr (pv_entry pv st1 h) (fun '(st2, _) => exists b', Inv st2 b' /\ b' < b) end)) ->
  forall k st b, Inv st b -> b < Z.of_nat k -> ends_in cr pv C Q k st.
Proof.
  intros H. induction k as [|k IH]; intros st b HI Hk; destruct (H st b HI) as (Hm & Hs); [lia|]. cbn [ends_in].
  eapply safe_impl; [exact Hs|tauto|]. intros (st1 & [i|]); [|auto]. intros Hc h Hh. eapply safe_impl; [apply Hc; exact Hh|tauto|].
  intros (st2 & o) (b' & I2 & M2). apply IH with (b := b'); [exact I2|lia].
Qed.
Lemma in_bound {P} (par : ops P Z) full lim cr neg I : Tame par (Some full) lim cr neg I -> forall p, I p -> o_pos par p <= zlen full.
Proof. intros HT p HI. apply (tm_pos _ _ _ _ _ _ HT p HI). Qed.

(** ** ... and the current entry satisfies [E] *)
Fixpoint ends_at {St} (crash : Prop) (pv : provider St) (C : info -> call -> Prop) (E : info -> St -> Prop) (Q : St -> Prop) (k : nat) (st : St) : Prop :=
  match k with
  | O => False
  | S k' =>
      safe crash (pv_next pv st) (fun '(st1, r) =>
        match r with
        | None => Q st1
        | Some i => E i st1 /\ forall h, Forall (C i) h -> safe crash (pv_entry pv st1 h) (fun '(st2, _) => ends_at crash pv C E Q k' st2)
        end)
  end.
Lemma ends_at_in {St} cr (pv : provider St) C E Q k : forall st, ends_at cr pv C E Q k st -> ends_in cr pv C Q k st.
Proof.
  induction k as [|k IH]; intros st; cbn [ends_at ends_in]; [tauto|]. intros H. eapply safe_impl; [exact H|tauto|].
  intros (st1 & [i|]); [|auto]. intros (_ & Hc) h Hh. eapply safe_impl; [apply Hc; exact Hh|tauto|]. intros (st2 & o). apply IH.
Qed.
Lemma ends_at_ends {St} cr (pv : provider St) C E Q k st : ends_at cr pv C E Q k st -> ends cr pv C k st.
Proof. intros H. eapply ends_in_ends, ends_at_in, H. Qed.
Lemma ends_inv_at {St} cr (pv : provider St) (C : info -> call -> Prop) (E : info -> St -> Prop) (Inv : St -> Prop) (Q : St -> Prop) (mu : St -> Z) :
  (forall st, Inv st -> 0 <= mu st /\ safe cr (pv_next pv st) (fun '(st1, r) => match r with None => Q st1 | Some i =>
     E i st1 /\ forall h, Forall (C i) h -> safe cr (pv_entry pv st1 h) (fun '(st2, _) => Inv st2 /\ mu st2 < mu st) end)) ->
  forall k st, Inv st -> mu st < Z.of_nat k -> ends_at cr pv C E Q k st.
Proof.
  intros H. induction k as [|k IH]; intros st HI Hk; destruct (H st HI) as (Hm & Hs); [lia|]. cbn [ends_at].
  eapply safe_impl; [exact Hs|tauto|]. intros (st1 & [i|]); [|auto]. intros (He & Hc). split; [exact He|]. intros h Hh. eapply safe_impl; [apply Hc; exact Hh|tauto|].
  intros (st2 & o) (I2 & M2). apply IH; [exact I2|lia].
Qed.
Lemma ends_inv2_at {St} cr (pv : provider St) (C : info -> call -> Prop) (E : info -> St -> Prop) (Inv : St -> Z -> Prop) (Q : St -> Prop) :
  (forall st b, Inv st b -> 0 <= b /\ safe cr (pv_next pv st) (fun '(st1, r) => match r with None => Q st1 | Some i =>
     E i st1 /\ forall h, Forall (C i) h -> safe cr (pv_entry pv st1 h) (fun '(st2, _) => exists b', Inv st2 b' /\ b' < b) end)) ->
  forall k st b, Inv st b -> b < Z.of_nat k -> ends_at cr pv C E Q k st.
Proof.
  intros H. induction k as [|k IH]; intros st b HI Hk; destruct (H st b HI) as (Hm & Hs); [lia|]. cbn [ends_at].
  eapply safe_impl; [exact Hs|tauto|]. intros (st1 & [i|]); [|auto]. intros (He & Hc). split; [exact He|]. intros h Hh. eapply safe_impl; [apply Hc; exact Hh|tauto|].
  intros (st2 & o) (b' & I2 & M2). apply IH with (b := b'); [exact I2|lia].
Qed.
