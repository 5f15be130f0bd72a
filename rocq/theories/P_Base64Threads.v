(** Proofs about M_Base64Threads.v (C57). *)
From Verif Require Import Base StreamSpec M_Base64 M_Base64Threads.

(** ** One thread with memory that it does not change *)
(** the memory when [initialize] has run *)
Definition ready : mem := Eval vm_compute in fst (Nat.iter 1000 (fun s => pstep (fst s) (snd s)) (mem0, initP)).
Lemma ready_tables : m_init ready = 1 /\ map (fun b : bool => if b then 1 else 0) (fst tables) = m_ina ready /\ snd tables = m_dec ready.
Proof. vm_compute. auto. Qed.
(** [evals m p n r]: with the memory [m], which stays as it is, the program ends after [n] steps with [r]; it never writes *)
Inductive evals {R} (m : mem) : prog R -> nat -> out R -> Prop :=
| ev_done r : evals m (Done r) 0 r
| ev_rd l k v n r : mget m l = Some v -> evals m (k v) n r -> evals m (Rd l k) (S n) r
| ev_ub l k : mget m l = None -> evals m (Rd l k) 1 UB.
Lemma evals_bind {R S} m (p : prog R) (f : R -> prog S) n a : evals m p n a -> forall r,
  match a with Ret x => exists n', evals m (f x) n' r | UB => r = UB | Abort => r = Abort | Hang => r = Hang end -> exists n', evals m (pbind p f) n' r.
Proof.
  induction 1 as [a|l k v n a Hg H IH|l k Hg]; intros r Hr.
  - destruct a; cbn [pbind]; [exact Hr|..]; subst r; eexists; apply ev_done.
  - cbn [pbind]. destruct (IH r Hr) as (n' & E). eexists. eapply ev_rd; [exact Hg|exact E].
  - subst r. cbn [pbind]. eexists. apply ev_ub, Hg.
Qed.
(** [same p o]: in the memory [ready] the program computes [o] *)
Definition computes {R} (p : prog R) (o : out R) : Prop := exists n, evals ready p n o.
Lemma c_done {R} (o : out R) : computes (Done o) o.
Proof. eexists; apply ev_done. Qed.
Lemma c_bind {R S} (p : prog R) (o : out R) (f : R -> prog S) (g : R -> out S) :
  computes p o -> (forall x, computes (f x) (g x)) -> computes (pbind p f) (bind o g).
Proof.
  intros (n & H) Hf. eapply evals_bind; [exact H|]. destruct o as [x| | |]; cbn [bind]; try reflexivity. apply Hf.
Qed.
Lemma c_init : computes initP (Ret tt).
Proof. exists 1%nat. eapply ev_rd; [reflexivity|]. apply ev_done. Qed.
Lemma c_ina c : computes (inaP c) (inalphabet c).
Proof.
  unfold computes, inaP, inalphabet. destruct ready_tables as (_ & Hi & _).
  assert (mget ready (LIna c) = match zget (fst tables) c with Some b => Some (if b : bool then 1 else 0) | None => None end) as Hg.
  { cbn [mget]. rewrite <- Hi. unfold zget. destruct (c <? 0); [reflexivity|]. rewrite nth_error_map. destruct (nth_error _ _); reflexivity. }
  destruct (zget (fst tables) c) as [[]|]; eexists.
  - eapply ev_rd; [exact Hg|]. apply ev_done.
  - eapply ev_rd; [exact Hg|]. apply ev_done.
  - apply ev_ub, Hg.
Qed.
Lemma c_dec c : computes (decP c) (decoder c).
Proof.
  unfold computes, decP, decoder. destruct ready_tables as (_ & _ & Hd).
  assert (mget ready (LDec c) = zget (snd tables) c) as Hg by (cbn [mget]; rewrite Hd; reflexivity).
  destruct (zget (snd tables) c) as [v|]; eexists; [eapply ev_rd; [exact Hg|]; apply ev_done|apply ev_ub, Hg].
Qed.
Lemma c_seq {R} (p : prog unit) (q : prog R) o : computes p (Ret tt) -> computes q o -> computes (let! _ := p in q) o.
Proof. intros H Hq. exact (c_bind p (Ret tt) (fun _ => q) (fun _ => o) H (fun _ => Hq)). Qed.
Ltac comp := repeat first
  [ apply c_done | apply c_ina | apply c_dec | apply c_bind; [|intros ?]
  | match goal with |- computes (if ?b then _ else _) _ => destruct b end
  | match goal with |- computes (let _ := _ in _) _ => cbv zeta end ].
Lemma c_words n l : forall c d, computes (dec_wordsP n l c d) (dec_words n l c d).
Proof. induction n as [|n IH]; intros c d; cbn [dec_wordsP dec_words]; comp. apply IH. Qed.
Lemma c_decode l : computes (decodeP l) (b64_decode l).
Proof.
  unfold decodeP, b64_decode. cbv zeta. apply c_seq; [exact c_init|]. destruct (negb _); [apply c_done|]. apply c_seq; [exact c_init|].
  apply c_bind; [apply c_done|]. intros last. apply c_bind; [apply c_words|]. intros [d|]; comp.
Qed.
Section Stream.
Context {P : Type}.
Variable par : ops P Z.
Lemma c_loop f : forall (q : b64 P) space d nw, computes (loopP par f q space d nw) (b64_loop par f q space d nw).
Proof.
  induction f as [|f IH]; intros q space d nw; cbn [loopP b64_loop]; [apply c_done|].
  apply c_bind; [apply c_done|]. intros ((q1 & more) & err). destruct (negb more); [apply c_done|].
  destruct (q_win q1) as [|c win]; [apply c_done|]. cbv zeta. destruct (c =? 61); [destruct (q_cc q1 =? 2); [|destruct (q_cc q1 =? 3)]; apply c_done|].
  comp; apply IH.
Qed.
Lemma c_fill f (q : b64 P) s : computes (fill64P par f q s) (b64_fill par f q s).
Proof.
  unfold fill64P, b64_fill. destruct (_ && _); [apply c_done|]. destruct (negb _); [comp|].
  apply c_bind; [apply c_loop|]. intros (((q1 & d) & nw) & e). comp.
Qed.
Lemma c_fills f l : forall q : b64 P, computes (fillsP par f q l) (fills par f q l).
Proof.
  induction l as [|s l IH]; intros q; cbn [fillsP fills]; [apply c_done|].
  apply c_bind; [apply c_fill|]. intros (((q1 & n) & d) & e). apply c_bind; [apply IH|]. intros r. apply c_done.
Qed.
Lemma c_stream f p l : computes (streamP par f p l) (fills par f (b64_new p) l).
Proof. unfold streamP. apply c_seq; [exact c_init|apply c_fills]. Qed.
End Stream.


(** ** What the threads of a program do *)
Lemma c_job j : computes (job_prog j) (job_alone j).
Proof.
  destruct j as [l|P par f p l]; cbn [job_prog job_alone]; apply c_bind; try (intros x; apply c_done); [apply c_decode|apply c_stream].
Qed.
(** initialize from the initial memory *)
Lemma iter_init {R} (f : unit -> prog R) : Nat.iter 322 (fun s => pstep (fst s) (snd s)) (mem0, pbind initP f) = (ready, f tt).
Proof. vm_compute. reflexivity. Qed.
Notation go n s := (Nat.iter n (fun x => pstep (fst x) (snd x)) s).
Lemma go_job j : exists p, go 322%nat (mem0, job_prog j) = (ready, p) /\ computes p (job_alone j).
Proof.
  destruct j as [l|P par f p l].
  - set (q := fun _ : unit => pbind (if negb (zlen l mod 4 =? 0) then Done (Ret []) else
      let! _ := initP in
      let! last := Done (inb l (zlen l - 1)) in
      let words := if last =? 61 then zlen l / 4 - 1 else zlen l / 4 in
      let c := 4 * words in
      let! d := dec_wordsP (Z.to_nat words) l 0 [] in
      match d with
      | None => Done (Ret [])
      | Some d =>
        let! last2 := Done (inb l (zlen l - 2)) in
        if last2 =? 61 then
          let! c0 := Done (inb l c) in let! i0 := inaP c0 in if negb i0 then Done (Ret []) else
          let! c1 := Done (inb l (c + 1)) in let! i1 := inaP c1 in if negb i1 then Done (Ret []) else
          let! v0 := decP c0 in let! v1 := decP c1 in
          Done (Ret (d ++ [(Z.shiftl v0 2 + Z.shiftr v1 4) mod 256]))
        else if last =? 61 then
          let! c0 := Done (inb l c) in let! i0 := inaP c0 in if negb i0 then Done (Ret []) else
          let! c1 := Done (inb l (c + 1)) in let! i1 := inaP c1 in if negb i1 then Done (Ret []) else
          let! c2 := Done (inb l (c + 2)) in let! i2 := inaP c2 in if negb i2 then Done (Ret []) else
          let! k := decP c1 in let! v0 := decP c0 in let! v2 := decP c2 in
          Done (Ret (d ++ [(Z.shiftl v0 2 + Z.shiftr k 4) mod 256; (Z.shiftl k 4 + Z.shiftr v2 2) mod 256]))
        else Done (Ret d)
      end) (fun d => Done (Ret (inl d : answer)))).
    exists (q tt). split.
    + rewrite <- (iter_init q). reflexivity.
    + apply c_bind; [|intros x; apply c_done]. unfold b64_decode. cbv zeta. destruct (negb _); [apply c_done|]. apply c_seq; [exact c_init|].
      apply c_bind; [apply c_done|]. intros last. apply c_bind; [apply c_words|]. intros [d|]; comp.
  - set (q := fun _ : unit => pbind (fillsP par f (b64_new p) l) (fun d => Done (Ret (inr d : answer)))).
    exists (q tt). split; [rewrite <- (iter_init q); reflexivity|]. apply c_bind; [apply c_fills|]. intros x. apply c_done.
Qed.
Lemma evals_step {R} (p : prog R) n o : evals ready p n o -> exists p', pstep ready p = (ready, p') /\ evals ready p' (n - 1) o.
Proof.
  intros H. destruct H as [r|l k v n r Hg H|l k Hg]; cbn [pstep].
  - eexists; split; [reflexivity|apply ev_done].
  - rewrite Hg. eexists; split; [reflexivity|]. cbn [Nat.sub]. rewrite Nat.sub_0_r. exact H.
  - rewrite Hg. eexists; split; [reflexivity|apply ev_done].
Qed.
Lemma evals_go {R} k : forall (p : prog R) n o, evals ready p n o -> exists p', go k (ready, p) = (ready, p') /\ evals ready p' (n - k) o.
Proof.
  induction k as [|k IH]; intros p n o H; [exists p; rewrite Nat.sub_0_r; auto|].
  destruct (IH p n o H) as (p1 & E & H1). destruct (evals_step p1 _ o H1) as (p2 & E2 & H2). exists p2. split.
  - cbn [Nat.iter]. change (let x := go k (ready, p) in pstep (fst x) (snd x) = (ready, p2)). cbv zeta. rewrite E. exact E2.
  - replace (n - S k)%nat with (n - k - 1)%nat by lia. exact H2.
Qed.
Lemma evals_done {R} (a : out R) n o : evals ready (Done a) n o -> a = o.
Proof. intros H. inversion H. reflexivity. Qed.
Lemma evals_0 {R} (p : prog R) o : evals ready p 0 o -> p = Done o.
Proof. intros H. inversion H. reflexivity. Qed.
Lemma go_done {R} k m (a : out R) : go k (m, Done a) = (m, Done a).
Proof. induction k as [|k IH]; [reflexivity|]. cbn [Nat.iter]. change (let x := go k (m, Done a) in pstep (fst x) (snd x) = (m, Done a)). cbv zeta. rewrite IH. reflexivity. Qed.
Lemma go_add {X} (f : X -> X) a b (s : X) : Nat.iter (a + b) f s = Nat.iter a f (Nat.iter b f s).
Proof. induction a as [|a IH]; [reflexivity|]. cbn [Nat.add Nat.iter]. change (f (Nat.iter (a + b) f s) = f (Nat.iter a f (Nat.iter b f s))). rewrite IH. reflexivity. Qed.
(** a thread that is alone *)
Lemma alone_go j : exists n0, forall n, ((n0 <= n)%nat -> go n (mem0, job_prog j) = (ready, Done (job_alone j))) /\
  forall m r, go n (mem0, job_prog j) = (m, Done r) -> m = ready /\ r = job_alone j.
Proof.
  destruct (go_job j) as (p & E & k & Hk). exists (k + 322)%nat. intros n. split.
  - intros H. replace n with ((n - 322) + 322)%nat by lia. rewrite go_add, E. destruct (evals_go (n - 322) p k _ Hk) as (p' & E' & H').
    rewrite E'. replace (k - (n - 322))%nat with 0%nat in H' by lia. rewrite (evals_0 _ _ H'). reflexivity.
  - intros m r H. assert (go (n + 322 + k)%nat (mem0, job_prog j) = (m, Done r)) as H1.
    { replace (n + 322 + k)%nat with ((322 + k) + n)%nat by lia. rewrite go_add, H. apply go_done. }
    replace (n + 322 + k)%nat with ((n + k) + 322)%nat in H1 by lia. rewrite go_add, E in H1.
    destruct (evals_go (n + k) p k _ Hk) as (p' & E' & H'). rewrite E' in H1. injection H1 as <- ->. split; [reflexivity|].
    exact (evals_done _ _ _ H').
Qed.
Lemma trun_alone {R} n : forall m (p : prog R), trun (m, [p]) (repeat 0%nat n) = (fst (go n (m, p)), [snd (go n (m, p))]).
Proof.
  induction n as [|n IH]; intros m p; [reflexivity|].
  cbn [repeat trun fold_left]. unfold trun in IH. unfold tstep at 2. cbn [snd nth_error fst]. destruct (pstep m p) as (m1 & p1) eqn:Es.
  cbn [set_at]. rewrite IH. replace (S n) with (n + 1)%nat by lia. rewrite go_add. cbn [Nat.iter]. 
  change (Nat.iter 1 (fun x => pstep (fst x) (snd x)) (m, p)) with (pstep m p). rewrite Es. reflexivity.
Qed.
(** ** Several threads *)
Lemma nth_set_at {X} (l : list X) : forall i j x, nth_error (set_at l i x) j =
  if (i =? j)%nat then match nth_error l j with Some _ => Some x | None => None end else nth_error l j.
Proof.
  induction l as [|y l IH]; intros i j x; [destruct i, j; cbn; try reflexivity; destruct (_ =? _)%nat; reflexivity|].
  destruct i as [|i], j as [|j]; cbn; try reflexivity. apply IH.
Qed.
Definition way {R} (ns : nat -> nat) (os : nat -> out R) (ps : list (prog R)) : Prop :=
  forall i p, nth_error ps i = Some p -> evals ready p (ns i) (os i).
Lemma way_step {R} ns (os : nat -> out R) ps i : way ns os ps ->
  exists ps', tstep (ready, ps) i = (ready, ps') /\ length ps' = length ps /\ way (fun j => if (i =? j)%nat then ns j - 1 else ns j)%nat os ps'.
Proof.
  intros H. unfold tstep. cbn [fst snd]. destruct (nth_error ps i) as [p|] eqn:Ep.
  - destruct (evals_step p _ _ (H i p Ep)) as (p' & E & H'). rewrite E. eexists; split; [reflexivity|]. split.
    { clear. revert i. induction ps as [|q ps IH]; intros [|i]; cbn; try reflexivity. f_equal. apply IH. }
    intros j q Hq. rewrite nth_set_at in Hq. destruct (Nat.eqb_spec i j) as [<-|]; [|exact (H j q Hq)].
    rewrite Ep in Hq. injection Hq as <-. exact H'.
  - exists ps. split; [reflexivity|]. split; [reflexivity|]. intros j q Hq. destruct (Nat.eqb_spec i j) as [<-|]; [congruence|exact (H j q Hq)].
Qed.
Lemma way_run {R} (os : nat -> out R) sched : forall ns ps, way ns os ps ->
  exists ps', trun (ready, ps) sched = (ready, ps') /\ length ps' = length ps /\ way (fun j => ns j - count_occ Nat.eq_dec sched j)%nat os ps'.
Proof.
  induction sched as [|i sched IH]; intros ns ps H.
  - exists ps. split; [reflexivity|]. split; [reflexivity|]. intros j q Hq. cbn. rewrite Nat.sub_0_r. exact (H j q Hq).
  - destruct (way_step ns os ps i H) as (ps1 & E & L & H1). destruct (IH _ _ H1) as (ps2 & E2 & L2 & H2).
    exists ps2. split; [unfold trun in *; cbn [fold_left]; rewrite E; exact E2|]. split; [lia|].
    intros j q Hq. specialize (H2 j q Hq). cbn beta in H2. cbn [count_occ]. destruct (Nat.eq_dec i j) as [->|Hne].
    + rewrite Nat.eqb_refl in H2. replace (ns j - S (count_occ Nat.eq_dec sched j))%nat with (ns j - 1 - count_occ Nat.eq_dec sched j)%nat by lia. exact H2.
    + apply Nat.eqb_neq in Hne. rewrite Hne in H2. exact H2.
Qed.
Lemma way_jobs jobs : exists ns, way ns (fun i => match nth_error jobs i with Some j => job_alone j | None => UB end) (map job_prog jobs).
Proof.
  induction jobs as [|j jobs (ns & IH)]; [exists (fun _ => 0%nat); intros [|i] p H; discriminate H|].
  destruct (c_job j) as (n & Hn). exists (fun i => match i with O => n | S i => ns i end).
  intros [|i] p H; cbn in *; [injection H as <-; exact Hn|exact (IH i p H)].
Qed.
Lemma way_no_race {R} ns (os : nat -> out R) ps : way ns os ps -> ~ racing ps.
Proof.
  intros H (i & j & p & q & l & w & w' & _ & Hp & Hq & Ep & Eq & Hw).
  assert (forall k (x : prog R) b, nth_error ps k = Some x -> next_access x = Some (l, b) -> b = false) as HA.
  { intros k x b Hx Ex. pose proof (H k x Hx) as Hv. inversion Hv; subst x; cbn in Ex; try discriminate; injection Ex as _ <-; reflexivity. }
  destruct Hw as [->| ->]; [discriminate (HA i p _ Hp Ep)|discriminate (HA j q _ Hq Eq)].
Qed.
