(** Foundations shared by all models: outcomes of C++ code, 32/64 bit ranges,
    Z-indexed lists.  Nothing here models a particular file of /repo. *)
From Coq Require Export List ZArith Lia Bool.
Export ListNotations.
Global Open Scope Z_scope.

(** * Outcome of executing C++ code.
    [UB]: undefined behaviour (signed overflow, access outside an object or to
    an uninitialised cell); [Abort]: a failed [assert]; [Hang]: a loop that does
    not end (only produced when explicit loop fuel runs out). *)
Inductive out (A : Type) : Type :=
| Ret (a : A) | UB | Abort | Hang.
Arguments Ret {A} a. Arguments UB {A}. Arguments Abort {A}. Arguments Hang {A}.

Definition bind {A B} (x : out A) (f : A -> out B) : out B :=
  match x with Ret a => f a | UB => UB | Abort => Abort | Hang => Hang end.
Notation "'let*' p ':=' e 'in' k" := (bind e (fun p => k))
  (at level 200, p pattern, e at level 100, k at level 200, right associativity).

(** * Machine integers *)
Definition INT32_MAX : Z := 2147483647.
Definition INT32_MIN : Z := -2147483648.
Definition INT64_MAX : Z := 9223372036854775807.
Definition i32 (z : Z) : bool := (INT32_MIN <=? z) && (z <=? INT32_MAX).
(** result of signed 32 bit arithmetic: overflow is undefined behaviour *)
Definition chk32 (z : Z) : out Z := if i32 z then Ret z else UB.
(** conversion to int32_t of a wider value (two's complement wrap) *)
Definition wrap32 (z : Z) : Z :=
  let r := z mod 4294967296 in if r <? 2147483648 then r else r - 4294967296.

(** * Z-indexed lists *)
Definition zlen {A} (l : list A) : Z := Z.of_nat (length l).
Definition zget {A} (l : list A) (i : Z) : option A :=
  if i <? 0 then None else nth_error l (Z.to_nat i).
(** [slice l o n]: the [n] items of [l] from index [o] on *)
Definition slice {A} (l : list A) (o n : Z) : list A :=
  firstn (Z.to_nat n) (skipn (Z.to_nat o) l).
(** overwrite the cells of [l] from index [o] on with [d] (which must fit) *)
Definition splice {A} (l : list A) (o : Z) (d : list A) : list A :=
  firstn (Z.to_nat o) l ++ d ++ skipn (Z.to_nat o + length d) l.

(** * Lemmas *)
Lemma zlen_nonneg {A} (l : list A) : 0 <= zlen l.
Proof. unfold zlen; lia. Qed.
Lemma zlen_app {A} (a b : list A) : zlen (a ++ b) = zlen a + zlen b.
Proof. unfold zlen; rewrite app_length; lia. Qed.
Lemma zlen_nil {A} : zlen (@nil A) = 0. Proof. reflexivity. Qed.
Lemma zlen_cons {A} (x : A) l : zlen (x :: l) = 1 + zlen l.
Proof. unfold zlen; cbn [length]; lia. Qed.
Lemma zlen_map {A B} (f : A -> B) l : zlen (map f l) = zlen l.
Proof. unfold zlen; rewrite map_length; reflexivity. Qed.
Lemma zlen_repeat {A} (x : A) n : zlen (repeat x n) = Z.of_nat n.
Proof. unfold zlen; rewrite repeat_length; reflexivity. Qed.
Lemma zlen_0_nil {A} (l : list A) : zlen l = 0 -> l = [].
Proof. destruct l; [reflexivity|rewrite zlen_cons; pose proof (zlen_nonneg l); lia]. Qed.

Lemma zget_none_neg {A} (l : list A) i : i < 0 -> zget l i = None.
Proof. unfold zget; intros H. destruct (Z.ltb_spec i 0); [reflexivity|lia]. Qed.
Lemma zget_none_big {A} (l : list A) i : zlen l <= i -> zget l i = None.
Proof. unfold zget, zlen; intros H. destruct (Z.ltb_spec i 0); [reflexivity|].
  apply nth_error_None; lia. Qed.
Lemma zget_some {A} (l : list A) i : 0 <= i < zlen l -> exists x, zget l i = Some x.
Proof. unfold zget, zlen; intros H. destruct (Z.ltb_spec i 0); [lia|].
  destruct (nth_error l (Z.to_nat i)) eqn:E; [eauto|].
  apply nth_error_None in E; lia. Qed.
Lemma zget_some_inv {A} (l : list A) i x : zget l i = Some x -> 0 <= i < zlen l.
Proof. intros H. destruct (Z.lt_ge_cases i 0) as [L|L].
  - rewrite zget_none_neg in H by lia; discriminate.
  - destruct (Z.lt_ge_cases i (zlen l)) as [M|M]; [lia|].
    rewrite zget_none_big in H by lia; discriminate. Qed.
Lemma zget_app {A} (a b : list A) i :
  zget (a ++ b) i = if i <? zlen a then zget a i else zget b (i - zlen a).
Proof. unfold zget, zlen.
  destruct (Z.ltb_spec i 0).
  - destruct (Z.ltb_spec i (Z.of_nat (length a))); [reflexivity|lia].
  - destruct (Z.ltb_spec i (Z.of_nat (length a))).
    + apply nth_error_app1; lia.
    + destruct (Z.ltb_spec (i - Z.of_nat (length a)) 0); [lia|].
      rewrite nth_error_app2 by lia. f_equal; lia. Qed.
Lemma zget_cons {A} (x : A) l i :
  zget (x :: l) i = if i =? 0 then Some x else if i <? 0 then None else zget l (i - 1).
Proof. change (x :: l) with ([x] ++ l). rewrite zget_app.
  change (zlen [x]) with 1. unfold zget.
  destruct (Z.eqb_spec i 0) as [->|]; [reflexivity|].
  destruct (Z.ltb_spec i 1), (Z.ltb_spec i 0), (Z.ltb_spec (i-1) 0); try lia; reflexivity. Qed.
Lemma zget_map {A B} (f : A -> B) l i : zget (map f l) i = option_map f (zget l i).
Proof. unfold zget; destruct (i <? 0); [reflexivity|]. rewrite nth_error_map; reflexivity. Qed.
Lemma nth_error_skipn' {A} (l : list A) n i : nth_error (skipn n l) i = nth_error l (n + i).
Proof. revert l; induction n as [|n IH]; intros l; [reflexivity|].
  destruct l; cbn [skipn Nat.add nth_error]; [destruct i; reflexivity|apply IH]. Qed.
Lemma nth_error_firstn' {A} (l : list A) n i :
  nth_error (firstn n l) i = if Nat.ltb i n then nth_error l i else None.
Proof. revert l i; induction n as [|n IH]; intros l i; [destruct i; reflexivity|].
  destruct l; cbn [firstn].
  - destruct i; [reflexivity|]. destruct (Nat.ltb (S i) (S n)); reflexivity.
  - destruct i; cbn [nth_error]; [reflexivity|]. rewrite IH.
    change (Nat.ltb (S i) (S n)) with (Nat.ltb i n). reflexivity. Qed.
Lemma zget_firstn {A} (l : list A) n i :
  zget (firstn n l) i = if i <? Z.of_nat n then zget l i else None.
Proof. unfold zget. destruct (Z.ltb_spec i 0).
  - destruct (i <? Z.of_nat n); reflexivity.
  - rewrite nth_error_firstn'.
    destruct (Nat.ltb_spec (Z.to_nat i) n), (Z.ltb_spec i (Z.of_nat n)); try lia; reflexivity. Qed.
Lemma zget_skipn {A} (l : list A) n i :
  zget (skipn n l) i = if i <? 0 then None else zget l (i + Z.of_nat n).
Proof. unfold zget. destruct (Z.ltb_spec i 0); [reflexivity|].
  destruct (Z.ltb_spec (i + Z.of_nat n) 0); [lia|].
  rewrite nth_error_skipn'. f_equal; lia. Qed.
Lemma zget_slice {A} (l : list A) o n i : 0 <= o ->
  zget (slice l o n) i = if (0 <=? i) && (i <? n) then zget l (o + i) else None.
Proof. intros Ho. unfold slice. rewrite zget_firstn, zget_skipn.
  destruct (Z.leb_spec 0 i), (Z.ltb_spec i n), (Z.ltb_spec i (Z.of_nat (Z.to_nat n))),
    (Z.ltb_spec i 0); cbn [andb]; try lia; try reflexivity.
  f_equal; lia. Qed.
Lemma zget_ext {A} (a b : list A) : (forall i, zget a i = zget b i) -> a = b.
Proof. revert b; induction a as [|x a IH]; intros [|y b] H.
  - reflexivity.
  - specialize (H 0); discriminate.
  - specialize (H 0); discriminate.
  - pose proof (H 0) as H0. cbn in H0. injection H0 as ->. f_equal. apply IH.
    intros i. destruct (Z.ltb_spec i 0) as [L|L].
    + rewrite !zget_none_neg by lia; reflexivity.
    + specialize (H (i + 1)). rewrite !zget_cons in H.
      destruct (Z.eqb_spec (i+1) 0); [lia|]. destruct (Z.ltb_spec (i+1) 0); [lia|].
      replace (i + 1 - 1) with i in H by lia. exact H. Qed.
Lemma zget_ext_range {A} (a b : list A) : zlen a = zlen b ->
  (forall i, 0 <= i < zlen a -> zget a i = zget b i) -> a = b.
Proof. intros L H. apply zget_ext. intros i.
  destruct (Z.lt_ge_cases i 0); [rewrite !zget_none_neg by lia; reflexivity|].
  destruct (Z.lt_ge_cases i (zlen a)); [apply H; lia|].
  rewrite !zget_none_big by lia; reflexivity. Qed.
Lemma zget_repeat {A} (x : A) n i :
  zget (repeat x n) i = if (0 <=? i) && (i <? Z.of_nat n) then Some x else None.
Proof. unfold zget. destruct (Z.ltb_spec i 0), (Z.leb_spec 0 i); try lia; cbn [andb]; [reflexivity|].
  destruct (Z.ltb_spec i (Z.of_nat n)).
  - rewrite nth_error_repeat; [reflexivity|lia].
  - apply nth_error_None. rewrite repeat_length; lia. Qed.
Lemma zlen_slice {A} (l : list A) o n : 0 <= o -> 0 <= n -> o + n <= zlen l ->
  zlen (slice l o n) = n.
Proof. unfold slice, zlen; intros. rewrite firstn_length, skipn_length. lia. Qed.
Lemma zlen_slice_le {A} (l : list A) o n : 0 <= n -> zlen (slice l o n) <= n.
Proof. unfold slice, zlen; intros. rewrite firstn_length. lia. Qed.
Lemma zlen_slice_min {A} (l : list A) o n : 0 <= o <= zlen l -> 0 <= n ->
  zlen (slice l o n) = Z.min n (zlen l - o).
Proof. unfold slice, zlen; intros. rewrite firstn_length, skipn_length. lia. Qed.
Lemma slice_all {A} (l : list A) : slice l 0 (zlen l) = l.
Proof. unfold slice, zlen. rewrite Nat2Z.id. cbn [Z.to_nat skipn]. apply firstn_all. Qed.
Lemma slice_0 {A} (l : list A) o : slice l o 0 = [].
Proof. reflexivity. Qed.
Lemma slice_neg {A} (l : list A) o n : n <= 0 -> slice l o n = [].
Proof. unfold slice; intros. replace (Z.to_nat n) with 0%nat by lia. reflexivity. Qed.
Lemma slice_beyond {A} (l : list A) o n : zlen l <= o -> slice l o n = [].
Proof. unfold slice, zlen; intros. rewrite skipn_all2 by lia. apply firstn_nil. Qed.
Lemma skipn_skipn' {A} (l : list A) a b : skipn a (skipn b l) = skipn (a + b) l.
Proof. revert l; induction b as [|b IH]; intros l; [rewrite Nat.add_0_r; reflexivity|].
  replace (a + S b)%nat with (S (a + b)) by lia. destruct l; [rewrite !skipn_nil; reflexivity|apply IH]. Qed.
Lemma slice_app {A} (l : list A) o n m : 0 <= o -> 0 <= n -> 0 <= m ->
  slice l o n ++ slice l (o + n) m = slice l o (n + m).
Proof. intros. unfold slice.
  replace (Z.to_nat (n + m)) with (Z.to_nat n + Z.to_nat m)%nat by lia.
  replace (Z.to_nat (o + n)) with (Z.to_nat n + Z.to_nat o)%nat by lia.
  rewrite <- skipn_skipn'. generalize (skipn (Z.to_nat o) l) as k, (Z.to_nat n) as a, (Z.to_nat m) as c. clear.
  intros k a; revert k; induction a as [|a IH]; intros [|x k] c; cbn [firstn skipn app Nat.add]; try reflexivity.
  - rewrite firstn_nil; reflexivity.
  - f_equal. apply IH. Qed.
Lemma slice_slice {A} (l : list A) o n p m : 0 <= o -> 0 <= p -> p + m <= n ->
  slice (slice l o n) p m = slice l (o + p) m.
Proof. intros. apply zget_ext; intros i. rewrite !zget_slice by lia.
  destruct (Z.leb_spec 0 i), (Z.ltb_spec i m); cbn [andb]; try reflexivity.
  destruct (Z.leb_spec 0 (p+i)), (Z.ltb_spec (p+i) n); try lia. cbn [andb]. f_equal; lia. Qed.
Lemma slice_slice_min {A} (l : list A) o n p m : 0 <= o -> 0 <= p -> 
  slice (slice l o n) p m = slice l (o + p) (Z.min m (n - p)).
Proof. intros. apply zget_ext; intros i. rewrite !zget_slice by lia.
  destruct (Z.leb_spec 0 i), (Z.ltb_spec i m), (Z.ltb_spec i (Z.min m (n-p))); cbn [andb]; try reflexivity; try lia.
  - destruct (Z.leb_spec 0 (p+i)), (Z.ltb_spec (p+i) n); try lia. cbn [andb]. f_equal; lia.
  - destruct (Z.leb_spec 0 (p+i)), (Z.ltb_spec (p+i) n); try lia; reflexivity. Qed.
Lemma slice_app_l {A} (a b : list A) o n : 0 <= o -> o + n <= zlen a ->
  slice (a ++ b) o n = slice a o n.
Proof. intros. apply zget_ext; intros i. rewrite !zget_slice by lia.
  destruct (Z.leb_spec 0 i), (Z.ltb_spec i n); cbn [andb]; try reflexivity.
  rewrite zget_app. destruct (Z.ltb_spec (o+i) (zlen a)); [reflexivity|lia]. Qed.
Lemma slice_app_r {A} (a b : list A) o n : zlen a <= o ->
  slice (a ++ b) o n = slice b (o - zlen a) n.
Proof. intros. pose proof (zlen_nonneg a). apply zget_ext; intros i. rewrite !zget_slice by lia.
  destruct (Z.leb_spec 0 i), (Z.ltb_spec i n); cbn [andb]; try reflexivity.
  rewrite zget_app. destruct (Z.ltb_spec (o+i) (zlen a)); [lia|f_equal; lia]. Qed.
Lemma slice_to_end {A} (l : list A) o n : 0 <= o -> zlen l - o <= n ->
  slice l o n = skipn (Z.to_nat o) l.
Proof. intros. unfold slice. apply firstn_all2. rewrite skipn_length. unfold zlen in *; lia. Qed.

Lemma zlen_splice {A} (l : list A) o d : 0 <= o -> o + zlen d <= zlen l ->
  zlen (splice l o d) = zlen l.
Proof. unfold splice, zlen; intros. rewrite !app_length, firstn_length, skipn_length. lia. Qed.
Lemma zget_splice {A} (l : list A) o d i : 0 <= o -> o + zlen d <= zlen l ->
  zget (splice l o d) i = if (o <=? i) && (i <? o + zlen d) then zget d (i - o) else zget l i.
Proof. intros Ho Hl. pose proof (zlen_nonneg d). unfold splice. rewrite !zget_app, zget_firstn.
  assert (zlen (firstn (Z.to_nat o) l) = o) as E by (unfold zlen in *; rewrite firstn_length; lia).
  rewrite E. rewrite zget_skipn.
  destruct (Z.ltb_spec i o), (Z.leb_spec o i); cbn [andb]; try lia.
  - destruct (Z.ltb_spec i (Z.of_nat (Z.to_nat o))); [reflexivity|lia].
  - destruct (Z.ltb_spec (i - o) (zlen d)), (Z.ltb_spec i (o + zlen d)); try lia; [reflexivity|].
    destruct (Z.ltb_spec (i - o - zlen d) 0); [lia|]. f_equal. unfold zlen in *; lia. Qed.

Lemma i32_true z : i32 z = true <-> INT32_MIN <= z <= INT32_MAX.
Proof. unfold i32. rewrite andb_true_iff, !Z.leb_le. tauto. Qed.
Lemma chk32_ok z : INT32_MIN <= z <= INT32_MAX -> chk32 z = Ret z.
Proof. intros H. unfold chk32. apply i32_true in H. rewrite H. reflexivity. Qed.
Lemma wrap32_id z : INT32_MIN <= z <= INT32_MAX -> wrap32 z = z.
Proof. unfold wrap32, INT32_MIN, INT32_MAX; intros H.
  destruct (Z.lt_ge_cases z 0) as [L|L].
  - replace (z mod 4294967296) with (z + 4294967296).
    + destruct (Z.ltb_spec (z + 4294967296) 2147483648); lia.
    + symmetry. rewrite <- (Z_mod_plus_full z 1). apply Z.mod_small. lia.
  - rewrite Z.mod_small by lia. destruct (Z.ltb_spec z 2147483648); lia. Qed.

Ltac zdest :=
  repeat match goal with
  | |- context [Z.ltb ?a ?b] => destruct (Z.ltb_spec a b)
  | |- context [Z.leb ?a ?b] => destruct (Z.leb_spec a b)
  | |- context [Z.eqb ?a ?b] => destruct (Z.eqb_spec a b)
  end.
Global Arguments zlen : simpl never.
Global Arguments zget : simpl never.
Global Arguments slice : simpl never.
Global Arguments splice : simpl never.
Global Arguments chk32 : simpl never.
Global Arguments wrap32 : simpl never.
Global Arguments i32 : simpl never.
(** [lia] after dropping implications from the context (they make it slow), or plain [lia] *)
Ltac lia0 :=
  solve [ repeat match goal with H : ?A -> ?B |- _ => match type of A with Prop => clear H end end; lia | lia ].
