(** C11: KmpSearcher. *)
From Verif Require Import Base M_Kmp KmpSpec P_Kmp.

(** [hist]: any number of earlier setQuery calls on the same object with valid queries. *)
Inductive prepared : searcher -> Prop :=
| prep_new : prepared kmp_null
| prep_set k q k' : prepared k -> q <> [] -> bytes q -> zlen q <= 2 ^ 29 - 258 -> setQuery k q = Ret k' -> prepared k'.
Lemma prepared_ok k : prepared k -> k = kmp_null \/ k_ok k.
Proof.
  induction 1 as [|k q k' Hk IH Hq HB Hl E]; [left; reflexivity|right].
  destruct (setQuery_ok k q IH Hq HB Hl) as (k2 & E2 & Hok & _). congruence.
Qed.

(** What holds for every non-empty query, whatever was searched with the object before:
    setQuery and search end without undefined behaviour; a non-null result is an
    occurrence.  For queries of at most 7 characters, and for longer ones whose last
    three characters do not occur earlier in the query, the result is the leftmost
    occurrence, and null means there is none.  Missing from the full claim: the other
    queries, for which it is false (next theorem). *)
Theorem C11_search_partial : forall k q hay,
  prepared k -> q <> [] -> bytes q -> zlen q <= 2 ^ 29 - 258 -> bytes hay ->
  exists k' r, setQuery k q = Ret k' /\ search k' hay = Ret r /\
    (forall j, r = Some j -> occurs_at q hay j) /\
    (short_or_unique_tail q ->
       (forall j, r = Some j -> forall d, d < j -> ~ occurs_at q hay d) /\
       (r = None <-> forall d, ~ occurs_at q hay d)).
Proof.
  intros k q hay Hk Hq HB Hl HH. destruct (setQuery_ok k q (prepared_ok k Hk) Hq HB Hl) as (k' & E & Hok & Eq).
  destruct (search_ok False k' hay Hok HH ltac:(tauto)) as (r & Er & _).
  exists k', r. split; [exact E|]. split; [exact Er|].
  destruct (search_ok (short_or_unique_tail q) k' hay Hok HH) as (r' & Er' & Hr); [rewrite Eq; tauto|].
  assert (r' = r) as -> by congruence. rewrite Eq in Hr. split.
  - intros j ->. apply Hr.
  - intros Hs. split.
    + intros j -> d Hd. apply (proj2 Hr Hs d Hd).
    + destruct r as [j|]; split; intros HN; try discriminate; try reflexivity.
      * exfalso. exact (HN j (proj1 Hr)).
      * exact (Hr Hs).
Qed.
Example C11_search_case :
  let q := [36;36;36;36] in let hay := [10;36;36;36;9;36;36;36;36;36;10] in
  short_or_unique_tail q /\ kmp_search q hay = Ret (Some 5) /\ occurs_at q hay 5.
Proof.
  cbv zeta. split; [left; vm_compute; discriminate|]. split; [vm_compute; reflexivity|].
  unfold occurs_at. split; [lia|]. split; [vm_compute; discriminate|vm_compute; reflexivity].
Qed.
Example C11_search_case_reuse : exists k, prepared k /\ k_maxlen k = 9 /\
  (let* k' := setQuery k [97;98] in search k' [98;97;97;98]) = Ret (Some 2).
Proof.
  assert (bytes [1;2;3;4;5;6;7;8;9]) as HB by (repeat constructor; lia).
  assert ([1;2;3;4;5;6;7;8;9] <> []) as HN by (intros H; inversion H).
  assert (zlen [1;2;3;4;5;6;7;8;9] <= 2 ^ 29 - 258) as HL by (change (zlen [1;2;3;4;5;6;7;8;9]) with 9; lia).
  destruct (setQuery_ok kmp_null _ (or_introl eq_refl) HN HB HL) as (k & E & _).
  exists k. split; [exact (prep_set _ _ _ prep_new HN HB HL E)|].
  vm_compute in E. injection E as <-. split; vm_compute; reflexivity.
Qed.
(** an 8 character query: "cddbdcdd" in "dddbdcddcddbdcdd" is at 8, the search says null *)
Theorem C11_misses_occurrence_refuted : exists q hay, bytes q /\ bytes hay /\ zlen q = 8 /\
  occurs_at q hay 8 /\ kmp_search q hay = Ret None.
Proof.
  exists [99;100;100;98;100;99;100;100], [100;100;100;98;100;99;100;100;99;100;100;98;100;99;100;100].
  split; [repeat constructor; lia|]. split; [repeat constructor; lia|]. split; [reflexivity|].
  split; [unfold occurs_at; split; [lia|]; split; [vm_compute; discriminate|vm_compute; reflexivity]|].
  vm_compute. reflexivity.
Qed.
(** and with the same query the search can return an occurrence that is not the leftmost one *)
Theorem C11_not_leftmost_refuted : exists q hay, bytes q /\ bytes hay /\
  occurs_at q hay 8 /\ kmp_search q hay = Ret (Some 16).
Proof.
  exists [99;100;100;98;100;99;100;100], [100;100;100;98;100;99;100;100;99;100;100;98;100;99;100;100;99;100;100;98;100;99;100;100].
  split; [repeat constructor; lia|]. split; [repeat constructor; lia|].
  split; [unfold occurs_at; split; [lia|]; split; [vm_compute; discriminate|vm_compute; reflexivity]|].
  vm_compute. reflexivity.
Qed.
(** setting the empty query writes in front of an array *)
Theorem C11_empty_query_refuted : forall hay, kmp_search [] hay = UB.
Proof. reflexivity. Qed.
(** a searcher without a query finds nothing *)
Theorem C11_no_query : forall hay, search kmp_null hay = Ret None.
Proof. reflexivity. Qed.
