(** C35: copies of a DirLister. *)
From Verif Require Import Base StreamSpec M_DirLister DirListerSpec.

(** * Bookkeeping *)
Definition cell (h : list (option Z)) (l : nat) : Z := match nth_error h l with Some (Some n) => n | _ => 0 end.
Lemma nth_set_nth {A} (h : list A) k a l : (k < length h)%nat -> nth_error (set_nth h k a) l = if Nat.eqb l k then Some a else nth_error h l.
Proof.
  revert k l. induction h as [|x h IH]; intros k l H; [cbn in H; lia|]. destruct k, l; cbn in *; try reflexivity. apply IH. lia.
Qed.
Definition one (p : priv) (l : nat) : Z := match d_listing p with Some k => if Nat.eqb k l then 1 else 0 | None => 0 end.
Fixpoint cnt (ls : list (nat * priv)) (l : nat) : Z := match ls with [] => 0 | x :: r => one (snd x) l + cnt r l end.
Lemma holders_eq w l : holders w l = Z.of_nat (count_occ Nat.eq_dec (w_held w) l) + cnt (w_listers w) l.
Proof.
  unfold holders. f_equal. induction (w_listers w) as [|(k & p) r IH]; [reflexivity|]. cbn [filter cnt snd]. unfold one.
  destruct (d_listing p) as [m|]; [destruct (Nat.eqb m l)|]; rewrite ?zlen_cons, IH; lia.
Qed.
Lemma one_nonneg p l : 0 <= one p l. Proof. unfold one. destruct (d_listing p); [destruct (Nat.eqb _ _)|]; lia. Qed.
Lemma cnt_nonneg ls l : 0 <= cnt ls l. Proof. induction ls; cbn; [lia|]. pose proof (one_nonneg (snd a) l). lia. Qed.
Lemma cnt_lister ls a p l : lister ls a = Some p -> one p l <= cnt ls l.
Proof.
  induction ls as [|(k & q) ls IH]; [discriminate|]. cbn [lister cnt snd]. destruct (Nat.eqb k a).
  - intros [= ->]. pose proof (cnt_nonneg ls l). lia.
  - intros H. apply IH in H. pose proof (one_nonneg q l). lia.
Qed.
Lemma cnt_update ls a p q l : lister ls a = Some p -> cnt (update ls a q) l = cnt ls l - one p l + one q l.
Proof.
  induction ls as [|(k & x) ls IH]; [discriminate|]. cbn [lister update]. destruct (Nat.eqb k a).
  - intros [= ->]. cbn [cnt snd]. lia.
  - intros H. cbn [cnt snd]. rewrite (IH H). lia.
Qed.
Lemma cnt_remove ls a p l : lister ls a = Some p -> cnt (remove ls a) l = cnt ls l - one p l.
Proof.
  induction ls as [|(k & x) ls IH]; [discriminate|]. cbn [lister remove]. destruct (Nat.eqb k a).
  - intros [= ->]. cbn [cnt snd]. lia.
  - intros H. cbn [cnt snd]. rewrite (IH H). lia.
Qed.
Lemma lister_update ls a q p : lister ls a = Some p -> lister (update ls a q) a = Some q.
Proof.
  induction ls as [|(k & x) ls IH]; [discriminate|]. cbn [lister update]. destruct (Nat.eqb k a) eqn:E; intros H; cbn [lister]; rewrite E; [reflexivity|auto].
Qed.
Record inv (w : world) : Prop := mkInv {
  v_rc : forall l, cell (w_heap w) l = holders w l;
  v_pos : forall l n, nth_error (w_heap w) l = Some (Some n) -> 0 < n;
  v_nd : NoDup (w_held w) }.
Lemma alive_of_holder w l : inv w -> 0 < holders w l -> nth_error (w_heap w) l = Some (Some (holders w l)).
Proof.
  intros V H. pose proof (v_rc w V l) as E. unfold cell in E. destruct (nth_error (w_heap w) l) as [[n|]|]; [congruence|lia|lia].
Qed.
Lemma ref_ok h l n : nth_error h l = Some (Some n) -> 0 <= n ->
  exists h', ref h l = Ret h' /\ (forall k, cell h' k = cell h k + if Nat.eqb k l then 1 else 0) /\
    (forall k, nth_error h' k = if Nat.eqb k l then Some (Some (n + 1)) else nth_error h k).
Proof.
  intros G Hn. unfold ref. rewrite G. pose proof (nth_error_Some h l) as N. rewrite G in N. assert (l < length h)%nat by (apply N; discriminate).
  eexists. split; [reflexivity|]. split; intros k; [unfold cell|]; rewrite nth_set_nth by lia; destruct (Nat.eqb_spec k l); subst; rewrite ?G; lia || reflexivity.
Qed.
Lemma unref_ok h l n : nth_error h l = Some (Some n) -> 0 < n ->
  exists h', unref h l = Ret h' /\ (forall k, cell h' k = cell h k - if Nat.eqb k l then 1 else 0) /\
    (forall k m, nth_error h' k = Some (Some m) -> (k = l /\ m = n - 1 /\ 0 < m) \/ (k <> l /\ nth_error h k = Some (Some m))) /\
    (forall k, k <> l -> nth_error h' k = nth_error h k) /\ (1 < n -> nth_error h' l = Some (Some (n - 1))).
Proof.
  intros G Hn. unfold unref. rewrite G. pose proof (nth_error_Some h l) as N. rewrite G in N. assert (l < length h)%nat by (apply N; discriminate).
  eexists. split; [reflexivity|]. split; [|split; [|split]].
  - intros k. unfold cell. rewrite nth_set_nth by lia. destruct (Nat.eqb_spec k l); subst; rewrite ?G; [|lia]. destruct (Z.eqb_spec (n - 1) 0); lia.
  - intros k m. rewrite nth_set_nth by lia. destruct (Nat.eqb_spec k l); subst; [|auto]. destruct (Z.eqb_spec (n - 1) 0); intros [= <-]. left. lia.
  - intros k Hk. rewrite nth_set_nth by lia. destruct (Nat.eqb_spec k l); [contradiction|reflexivity].
  - intros H1. rewrite nth_set_nth by lia. rewrite Nat.eqb_refl. destruct (Z.eqb_spec (n - 1) 0); [lia|reflexivity].
Qed.
Lemma count_held w l : NoDup (w_held w) -> In l (w_held w) -> count_occ Nat.eq_dec (w_held w) l = 1%nat.
Proof. intros N I. apply (proj1 (NoDup_count_occ' Nat.eq_dec (w_held w)) N l I). Qed.

Lemma count_remove_neq (h : list nat) k l : k <> l -> count_occ Nat.eq_dec (List.remove Nat.eq_dec l h) k = count_occ Nat.eq_dec h k.
Proof.
  intros N. induction h as [|x h IH]; [reflexivity|]. cbn [List.remove count_occ]. destruct (Nat.eq_dec l x).
  - destruct (Nat.eq_dec x k); [congruence|exact IH].
  - cbn [count_occ]. destruct (Nat.eq_dec x k); rewrite IH; reflexivity.
Qed.
Lemma nodup_rem (h : list nat) l : NoDup h -> NoDup (List.remove Nat.eq_dec l h).
Proof.
  induction h as [|x h IH]; intros N; [constructor|]. inversion N as [|? ? N1 N2]; subst. cbn [List.remove]. destruct (Nat.eq_dec l x); [auto|].
  constructor; [|auto]. intros I. apply in_remove in I. apply N1, I.
Qed.
(** without the copy constructor and self assignment *)
Definition shared_by_rules (o : op) : Prop :=
  match o with OpCopy _ _ => False | OpAssign a b => a <> b | _ => True end.

Lemma one_eq p l : one p l = match d_listing p with Some k => if Nat.eqb l k then 1 else 0 | None => 0 end.
Proof. unfold one. destruct (d_listing p); [rewrite Nat.eqb_sym|]; reflexivity. Qed.
Lemma cnt_two ls a b p q l : a <> b -> lister ls a = Some p -> lister ls b = Some q -> one p l + one q l <= cnt ls l.
Proof.
  intros N. induction ls as [|(k & x) ls IH]; [discriminate|]. cbn [lister cnt snd].
  destruct (Nat.eqb_spec k a), (Nat.eqb_spec k b); [lia| | |].
  - intros [= ->] H. apply (cnt_lister _ _ _ l) in H. lia.
  - intros H [= ->]. apply (cnt_lister _ _ _ l) in H. lia.
  - intros H H2. pose proof (IH H H2). pose proof (one_nonneg x l). lia.
Qed.
Lemma step_ok w o : inv w -> legal w o -> shared_by_rules o -> exists w', step w o = Ret w' /\ inv w'.
Proof.
  intros V Lg R. destruct o as [a url|a l url|a url|l|a b|a b|a|a]; cbn [legal shared_by_rules] in Lg, R; cbn [step].
  - set (h0 := w_heap w ++ [Some 0]). set (l := length (w_heap w)).
    assert (nth_error h0 l = Some (Some 0)) as G by (unfold h0, l; rewrite nth_error_app2, Nat.sub_diag by lia; reflexivity).
    assert (forall k, cell h0 k = cell (w_heap w) k) as C0.
    { intros k. unfold cell, h0. destruct (Nat.lt_ge_cases k l) as [HL|HL]; [rewrite nth_error_app1 by exact HL; reflexivity|].
      rewrite (proj2 (nth_error_None (w_heap w) k) HL), nth_error_app2 by exact HL.
      destruct (k - length (w_heap w))%nat as [|[|?]]; reflexivity. }
    destruct (ref_ok h0 l 0 G ltac:(lia)) as (h1 & E1 & C1 & N1). rewrite E1. cbn [bind].
    assert (nth_error h1 l = Some (Some 1)) as G1 by (rewrite N1, Nat.eqb_refl; reflexivity).
    destruct (ref_ok h1 l 1 G1 ltac:(lia)) as (h2 & E2 & C2 & N2). rewrite E2. cbn [bind].
    eexists. split; [reflexivity|].
    assert (~ In l (w_held w)) as NI.
    { intros I. assert (0 < holders w l) as P by (rewrite holders_eq, (count_held w l (v_nd w V) I); pose proof (cnt_nonneg (w_listers w) l); lia).
      pose proof (alive_of_holder w l V P) as A. assert (nth_error (w_heap w) l <> None) as A' by (rewrite A; discriminate). apply nth_error_Some in A'. unfold l in A'. lia. }
    constructor; cbn [w_heap w_held].
    + intros k. rewrite holders_eq. cbn [w_held w_listers cnt snd]. rewrite one_eq. cbn [d_listing].
      rewrite C2, C1, C0, (v_rc w V k), holders_eq. cbn [count_occ]. destruct (Nat.eq_dec l k), (Nat.eqb_spec k l); try congruence; lia.
    + intros k n. rewrite N2, N1. destruct (Nat.eqb_spec k l) as [|NE]; [intros [= <-]; lia|]. unfold h0. intros H. destruct (Nat.lt_ge_cases k l) as [HL|HL].
      * rewrite nth_error_app1 in H by exact HL. exact (v_pos w V k n H).
      * rewrite nth_error_app2 in H by exact HL. destruct (k - length (w_heap w))%nat as [|[|?]] eqn:EK; [unfold l in *; lia|discriminate|discriminate].
    + constructor; [exact NI|exact (v_nd w V)].
  - destruct Lg as (_ & I).
    assert (0 < holders w l) as P by (rewrite holders_eq, (count_held w l (v_nd w V) I); pose proof (cnt_nonneg (w_listers w) l); lia).
    destruct (ref_ok _ l _ (alive_of_holder w l V P) ltac:(lia)) as (h1 & E1 & C1 & N1). rewrite E1. cbn [bind]. eexists. split; [reflexivity|].
    constructor; cbn [w_heap w_held].
    + intros k. rewrite holders_eq. cbn [w_held w_listers cnt snd]. rewrite one_eq. cbn [d_listing]. rewrite C1, (v_rc w V k), holders_eq. lia.
    + intros k n. rewrite N1. destruct (Nat.eqb k l); [intros [= <-]; lia|exact (v_pos w V k n)].
    + exact (v_nd w V).
  - eexists. split; [reflexivity|]. constructor; cbn [w_heap w_held].
    + intros k. rewrite holders_eq. cbn [w_held w_listers cnt snd]. rewrite one_eq. cbn [d_listing]. rewrite (v_rc w V k), holders_eq. lia.
    + exact (v_pos w V).
    + exact (v_nd w V).
  - assert (0 < holders w l) as P by (rewrite holders_eq, (count_held w l (v_nd w V) Lg); pose proof (cnt_nonneg (w_listers w) l); lia).
    destruct (unref_ok _ l _ (alive_of_holder w l V P) P) as (h1 & E1 & C1 & N1 & _). rewrite E1. cbn [bind]. eexists. split; [reflexivity|].
    constructor; cbn [w_heap w_held].
    + intros k. rewrite holders_eq. cbn [w_held w_listers]. rewrite C1, (v_rc w V k), holders_eq. destruct (Nat.eqb_spec k l) as [->|NE].
      * rewrite (count_held w l (v_nd w V) Lg). rewrite (proj1 (count_occ_not_In Nat.eq_dec _ l) (remove_In Nat.eq_dec _ l)). lia.
      * rewrite count_remove_neq by congruence. lia.
    + intros k n H. destruct (N1 k n H) as [(_ & _ & ?)|(_ & ?)]; [assumption|exact (v_pos w V k n ltac:(assumption))].
    + apply nodup_rem. exact (v_nd w V).
  - contradiction.
  - destruct Lg as (La & Lb). destruct (lister (w_listers w) a) as [p|] eqn:Ea; [|contradiction]. destruct (lister (w_listers w) b) as [q|] eqn:Eb; [|contradiction].
    assert (forall l, one p l + one q l <= holders w l) as HH.
    { intros l. rewrite holders_eq. pose proof (cnt_two _ a b p q l R Ea Eb). lia. }
    assert (exists h1, unref_opt (w_heap w) (d_listing p) = Ret h1 /\ (forall k, cell h1 k = cell (w_heap w) k - one p k) /\
      (forall k m, nth_error h1 k = Some (Some m) -> 0 < m)) as (h1 & E1 & C1 & P1).
    { unfold unref_opt. destruct (d_listing p) as [l|] eqn:Ep.
      - assert (0 < holders w l) as P. { specialize (HH l). unfold one in HH at 1. rewrite Ep, Nat.eqb_refl in HH. pose proof (one_nonneg q l). lia. }
        destruct (unref_ok _ l _ (alive_of_holder w l V P) P) as (h1 & E1 & C1 & N1 & _). exists h1. split; [exact E1|]. split.
        + intros k. rewrite C1, one_eq, Ep. reflexivity.
        + intros k m H. destruct (N1 k m H) as [(_ & _ & ?)|(_ & ?)]; [assumption|exact (v_pos w V k m ltac:(assumption))].
      - exists (w_heap w). split; [reflexivity|]. split; [intros k; rewrite one_eq, Ep; lia|exact (v_pos w V)]. }
    rewrite E1. cbn [bind].
    assert (exists h2, ref_opt h1 (d_listing q) = Ret h2 /\ (forall k, cell h2 k = cell h1 k + one q k) /\
      (forall k m, nth_error h2 k = Some (Some m) -> 0 < m)) as (h2 & E2 & C2 & P2).
    { unfold ref_opt. destruct (d_listing q) as [l|] eqn:Eq.
      - assert (0 < cell h1 l) as P. { rewrite C1, (v_rc w V l). specialize (HH l). unfold one at 2 in HH. rewrite Eq, Nat.eqb_refl in HH. lia. }
        unfold cell in P. destruct (nth_error h1 l) as [[n|]|] eqn:G; try lia.
        destruct (ref_ok h1 l n G ltac:(lia)) as (h2 & E2 & C2 & N2). exists h2. split; [exact E2|]. split.
        + intros k. rewrite C2, one_eq, Eq. reflexivity.
        + intros k m. rewrite N2. destruct (Nat.eqb k l); [intros [= <-]; lia|exact (P1 k m)].
      - exists h1. split; [reflexivity|]. split; [intros k; rewrite one_eq, Eq; lia|exact P1]. }
    rewrite E2. cbn [bind]. eexists. split; [reflexivity|]. constructor; cbn [w_heap w_held].
    + intros k. rewrite holders_eq. cbn [w_held w_listers]. rewrite (cnt_update _ a p _ k Ea), C2, C1, (v_rc w V k), holders_eq. unfold one. cbn [d_listing]. lia.
    + exact P2.
    + exact (v_nd w V).
  - destruct (lister (w_listers w) a) as [p|] eqn:Ea; [|contradiction].
    assert (exists h1, unref_opt (w_heap w) (d_listing p) = Ret h1 /\ (forall k, cell h1 k = cell (w_heap w) k - one p k) /\
      (forall k m, nth_error h1 k = Some (Some m) -> 0 < m)) as (h1 & E1 & C1 & P1).
    { unfold unref_opt. destruct (d_listing p) as [l|] eqn:Ep.
      - assert (0 < holders w l) as P. { rewrite holders_eq. pose proof (cnt_lister _ a p l Ea) as Q. unfold one in Q. rewrite Ep, Nat.eqb_refl in Q. lia. }
        destruct (unref_ok _ l _ (alive_of_holder w l V P) P) as (h1 & E1 & C1 & N1 & _). exists h1. split; [exact E1|]. split.
        + intros k. rewrite C1, one_eq, Ep. reflexivity.
        + intros k m H. destruct (N1 k m H) as [(_ & _ & ?)|(_ & ?)]; [assumption|exact (v_pos w V k m ltac:(assumption))].
      - exists (w_heap w). split; [reflexivity|]. split; [intros k; rewrite one_eq, Ep; lia|exact (v_pos w V)]. }
    rewrite E1. cbn [bind]. eexists. split; [reflexivity|]. constructor; cbn [w_heap w_held].
    + intros k. rewrite holders_eq. cbn [w_held w_listers]. rewrite (cnt_remove _ a p k Ea), C1, (v_rc w V k), holders_eq. lia.
    + exact P1.
    + exact (v_nd w V).
  - destruct (lister (w_listers w) a) as [p|] eqn:Ea; [|contradiction]. destruct (d_listing p) as [l|] eqn:Ep; [|eauto].
    assert (0 < holders w l) as P. { rewrite holders_eq. pose proof (cnt_lister _ a p l Ea) as Q. unfold one in Q. rewrite Ep, Nat.eqb_refl in Q. lia. }
    rewrite (alive_of_holder w l V P). eexists. split; [reflexivity|]. constructor; cbn [w_heap w_held].
    + intros k. rewrite holders_eq. cbn [w_held w_listers]. rewrite (cnt_update _ a p _ k Ea), (v_rc w V k), holders_eq. unfold one. cbn [d_listing]. rewrite Ep. lia.
    + exact (v_pos w V).
    + exact (v_nd w V).
Qed.
Lemma steps_ok os : forall w, inv w -> all_legal shared_by_rules w os -> exists w', steps w os = Ret w' /\ inv w'.
Proof.
  induction os as [|o os IH]; intros w V A; cbn [steps all_legal] in *; [eauto|]. destruct A as (Lg & R & A).
  destruct (step_ok w o V Lg R) as (w1 & E & V1). rewrite E. cbn [bind]. apply IH; [exact V1|exact (A w1 E)].
Qed.
Lemma inv0 : inv world0.
Proof. constructor; cbn; [intros [|l]; reflexivity|intros [|l]; discriminate|constructor]. Qed.

(** * The theorems *)
(** For every program that shares listings through dirEntries() and assignment between two different
    listers: no deleted listing is ever used, released or deleted again, and at every moment a listing is
    alive exactly while the reader or some lister holds it. *)
Theorem C35_lifetime_partial : forall os, all_legal shared_by_rules world0 os ->
  exists w, steps world0 os = Ret w /\
    forall l, (exists n, nth_error (w_heap w) l = Some (Some n)) <-> 0 < holders w l.
Proof.
  intros os A. destruct (steps_ok os world0 inv0 A) as (w & E & V). exists w. split; [exact E|]. intros l. split.
  - intros (n & G). rewrite <- (v_rc w V l). unfold cell. rewrite G. exact (v_pos w V l n G).
  - intros P. rewrite (alive_of_holder w l V P). eauto.
Qed.
(** After a = b, both work on the same listing; they also list the same directory if nextEntry() was
    called on b before, or both were made for the same url. *)
Theorem C35_assigned_lists_same_partial : forall w a b p q w',
  lister (w_listers w) a = Some p -> lister (w_listers w) b = Some q -> a <> b ->
  step w (OpAssign a b) = Ret w' ->
  exists p', lister (w_listers w') a = Some p' /\ d_listing p' = d_listing q /\
    (d_entry q <> None \/ d_url p = d_url q -> lists_what p' = lists_what q).
Proof.
  intros w a b p q w' Ea Eb N E. cbn [step] in E. rewrite Ea, Eb in E.
  destruct (unref_opt (w_heap w) (d_listing p)) as [h1| | |]; cbn [bind] in E; try discriminate.
  destruct (ref_opt h1 (d_listing q)) as [h2| | |]; cbn [bind] in E; try discriminate. injection E as <-.
  cbn [w_listers]. eexists. split; [apply (lister_update _ a _ p Ea)|]. cbn [d_listing]. split; [reflexivity|].
  unfold lists_what. cbn [d_listing d_entry d_url]. intros [H| ->]; destruct (d_listing q), (d_entry q); congruence.
Qed.

Ltac run_legal := cbn; repeat (split; [repeat split; solve [discriminate|auto]|split; [solve [exact I|discriminate]|intros ? [= <-]; cbn]]); exact I.
(** Missing: the copy constructor does not count the copy. Destroying the original and the copy deletes
    the listing that the reader still holds; the reader then releases freed memory. *)
Theorem C35_copy_refuted :
  let os := [OpNew 1 [114]; OpCopy 2 1; OpDestroy 2; OpDestroy 1; OpRelease 0] in
  all_legal (fun _ => True) world0 os /\ steps world0 os = UB.
Proof. split; [|vm_compute; reflexivity]. run_legal. Qed.
(** ... a program with no reader left: the original is used after its copy was destroyed *)
Theorem C35_use_after_copy_refuted :
  let os := [OpNew 1 [114]; OpRelease 0; OpCopy 2 1; OpDestroy 2; OpUse 1] in
  all_legal (fun _ => True) world0 os /\ steps world0 os = UB.
Proof. split; [|vm_compute; reflexivity]. run_legal. Qed.
(** ... and so does assigning a lister to itself when it is the only holder *)
Theorem C35_self_assign_refuted :
  let os := [OpNew 1 [114]; OpRelease 0; OpAssign 1 1] in
  all_legal (fun _ => True) world0 os /\ steps world0 os = UB.
Proof. split; [|vm_compute; reflexivity]. run_legal. Qed.
(** ... and an assigned lister keeps its own url: before the first nextEntry() of b, a = b leaves a on
    another directory *)
Theorem C35_assigned_url_refuted :
  let os := [OpNew 1 [114]; OpShare 2 0 [114;47;100]; OpAssign 1 2] in
  all_legal (fun _ => True) world0 os /\
  exists w p q, steps world0 os = Ret w /\ lister (w_listers w) 1 = Some p /\ lister (w_listers w) 2 = Some q /\
    lists_what p = Some (0%nat, [114]) /\ lists_what q = Some (0%nat, [114;47;100]).
Proof.
  split; [run_legal|].
  eexists (mkWorld [Some 3] [0%nat] _), _, _. split; [reflexivity|]. split; [reflexivity|]. split; [reflexivity|]. split; reflexivity.
Qed.
(** A program within the rules: two listings, one shared and handed over by assignment *)
Definition eg_ops := [OpNew 1 [114]; OpNew 2 [115]; OpShare 3 0 [114]; OpUse 3; OpAssign 2 3; OpRelease 1; OpDestroy 1; OpRelease 0; OpDestroy 3; OpUse 2].
Theorem C35_case : all_legal shared_by_rules world0 eg_ops /\
  exists w, steps world0 eg_ops = Ret w /\ w_heap w = [Some 1; None] /\ holders w 0 = 1 /\ holders w 1 = 0.
Proof.
  split.
  - run_legal.
  - eexists (mkWorld [Some 1; None] [] _). split; [reflexivity|]. split; [reflexivity|]. split; reflexivity.
Qed.
