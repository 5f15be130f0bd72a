From Verif Require Import Base StreamSpec P_Stream M_Kmp M_Buffered BufferedSpec P_Buffered ArchiveSpec P_BufInv.
From Verif Require Import B64Spec TextSpec M_Text T_Text M_Detect DetectSpec P_Detect OleSpec M_Ole.

Lemma Forall_skipn' {A} (P : A -> Prop) l : Forall P l -> forall n, Forall P (skipn n l).
Proof. induction 1; intros [|n]; cbn; auto. Qed.
Lemma Forall_firstn' {A} (P : A -> Prop) l : Forall P l -> forall n, Forall P (firstn n l).
Proof. induction 1; intros [|n]; cbn; auto. Qed.
Lemma Forall_slice {A} (P : A -> Prop) (l : list A) o n : Forall P l -> Forall P (slice l o n).
Proof. intros H. unfold slice. apply Forall_firstn', Forall_skipn'; exact H. Qed.
Lemma zget_Forall {A} (P : A -> Prop) l i x : Forall P l -> zget l i = Some x -> P x.
Proof. intros H E. unfold zget in E. destruct (i <? 0); [discriminate|]. apply nth_error_In in E. rewrite Forall_forall in H. auto. Qed.

Lemma word_range d o : Forall byte d -> 0 <= o -> o + 4 <= zlen d -> INT32_MIN <= word d o <= INT32_MAX.
Proof.
  intros HB Ho Hl. unfold word, twos. change (256 ^ 4) with 4294967296. change (4294967296 / 2) with 2147483648.
  assert (HF : Forall byte (slice d o 4)) by (apply Forall_slice; exact HB).
  assert (HL : zlen (slice d o 4) = 4) by (apply zlen_slice; lia).
  destruct (slice d o 4) as [|a [|b [|c [|e [|f l]]]]]; try (exfalso; rewrite ?zlen_cons, ?zlen_nil in HL; pose proof (zlen_nonneg l); lia); try discriminate HL.
  repeat match goal with H : Forall _ (_ :: _) |- _ => inversion H; clear H; subst end. unfold byte, INT32_MIN, INT32_MAX in *.
  cbn [le_value]. destruct (Z.ltb_spec (a + 256 * (b + 256 * (c + 256 * (e + 256 * 0)))) 2147483648); lia.
Qed.
Lemma le32_ok big d o : Forall byte d -> 0 <= o -> o + 4 <= zlen d -> le32 big d o = Ret (word d o).
Proof.
  intros HB Ho Hl. unfold le32. replace ((0 <=? o) && (o + 4 <=? zlen d)) with true by (symmetry; rewrite andb_true_iff, !Z.leb_le; lia).
  destruct (C18_32 big (slice d o 4)) as (_ & -> & _); [apply Forall_slice; exact HB|apply zlen_slice; lia|]. reflexivity.
Qed.

(** ** counting the blocks that are not marked yet *)
Definition range (m : Z) : list Z := map Z.of_nat (seq 0 (Z.to_nat m)).
Definition unused (m : Z) (used : list Z) : nat := length (filter (fun x => negb (inset x used)) (range m)).
Lemma range_in m x : 0 <= x < m -> In x (range m).
Proof. intros H. apply in_map_iff. exists (Z.to_nat x). split; [lia|]. apply in_seq. lia. Qed.
Lemma inset_cons x y l : inset x (y :: l) = (x =? y) || inset x l. Proof. reflexivity. Qed.
Lemma filter_le {A} (f g : A -> bool) l : (forall x, f x = true -> g x = true) -> (length (filter f l) <= length (filter g l))%nat.
Proof. intros H. induction l as [|a l IH]; cbn; [lia|]. destruct (f a) eqn:E; [rewrite (H _ E); cbn; lia|]. destruct (g a); cbn; lia. Qed.
Lemma filter_lt {A} (f g : A -> bool) l y : (forall x, f x = true -> g x = true) -> In y l -> f y = false -> g y = true ->
  (length (filter f l) < length (filter g l))%nat.
Proof.
  intros H. induction l as [|a l IH]; intros HI Hf Hg; [contradiction|]. cbn. destruct HI as [-> |HI].
  - rewrite Hf, Hg. cbn. pose proof (filter_le f g l H). lia.
  - specialize (IH HI Hf Hg). destruct (f a) eqn:E; [rewrite (H _ E); cbn; lia|]. destruct (g a); cbn; lia.
Qed.
Lemma unused_mono m x l : (unused m (x :: l) <= unused m l)%nat.
Proof. apply filter_le. intros y. rewrite inset_cons. destruct (y =? x); cbn; [discriminate|tauto]. Qed.
Lemma unused_add m x l : 0 <= x < m -> inset x l = false -> (unused m (x :: l) < unused m l)%nat.
Proof.
  intros Hx Hi. apply filter_lt with (y := x).
  - intros y. rewrite inset_cons. destruct (y =? x); cbn; [discriminate|tauto].
  - apply range_in; exact Hx.
  - rewrite inset_cons, Z.eqb_refl. reflexivity.
  - rewrite Hi. reflexivity.
Qed.
Lemma unused_max m l : (unused m l <= Z.to_nat m)%nat.
Proof.
  unfold unused. assert (length (range m) = Z.to_nat m) as <- by (unfold range; rewrite map_length, seq_length; reflexivity).
  induction (range m) as [|a r IH]; cbn; [lia|]. destruct (negb _); cbn; lia.
Qed.

Section D.
Variables (big : bool) (D : list Z).
Hypothesis HB : Forall byte D.
Hypothesis HL : zlen D <= INT32_MAX.
Notation mi := (maxindex D).

Lemma mi_bound x : 0 <= x <= mi -> 512 * (x + 2) <= zlen D.
Proof.
  unfold maxindex. intros H. pose proof (zlen_nonneg D). rewrite Z.quot_div_nonneg in H by lia. pose proof (Z.mul_div_le (zlen D) 512). lia.
Qed.

(** ** nextBlock *)
Lemma chain_step bat (top : Z) used inn : Forall moderate bat -> 0 <= inn ->
  exists u x,
  match (if Z.quot inn 128 <? 0 then None else zget bat (Z.quot inn 128)) with
  | None => Ret (used, -4)
  | Some b =>
      let* bid := chk32 (b + 1) in
      let* m := chk32 (512 * bid) in
      let* next := chk32 (Z.rem inn 128 * 4 + m) in
      if (next <? 0) || (zlen D - 4 <? next) then Ret (used, -4)
      else
        let* next := le32 big D next in
        if (next <? -2) || (next =? -1) || (top <? next) || inset next used then Ret (used, -4)
        else if 0 <=? next then Ret (next :: used, next) else Ret (used, next)
  end = Ret (u, x) /\ ((x < 0 /\ u = used) \/ (0 <= x <= top /\ inset x used = false /\ u = x :: used)).
Proof.
  intros HM Hi. rewrite Z.quot_div_nonneg, Z.rem_mod_nonneg by lia. pose proof (Z.div_pos inn 128). pose proof (Z.mod_pos_bound inn 128).
  destruct (Z.ltb_spec (inn / 128) 0); [lia|]. destruct (zget bat (inn / 128)) as [b|] eqn:Eb.
  2:{ do 2 eexists. split; [reflexivity|]. left. split; [lia|reflexivity]. }
  assert (moderate b) as Hb by (eapply zget_Forall; eassumption). unfold moderate in Hb.
  unfold INT32_MIN, INT32_MAX in *.
  rewrite (chk32_ok (b + 1)) by (unfold INT32_MIN, INT32_MAX; lia). cbn [bind].
  rewrite (chk32_ok (512 * (b + 1))) by (unfold INT32_MIN, INT32_MAX; lia). cbn [bind].
  rewrite chk32_ok by (unfold INT32_MIN, INT32_MAX; lia). cbn [bind].
  set (o := inn mod 128 * 4 + 512 * (b + 1)).
  destruct (Z.ltb_spec o 0); cbn [orb]; [do 2 eexists; split; [reflexivity|]; left; split; [lia|reflexivity]|].
  destruct (Z.ltb_spec (zlen D - 4) o); [do 2 eexists; split; [reflexivity|]; left; split; [lia|reflexivity]|].
  rewrite le32_ok by (assumption || lia). cbn [bind]. set (w := word D o).
  destruct ((w <? -2) || (w =? -1) || (top <? w) || inset w used) eqn:E; [do 2 eexists; split; [reflexivity|]; left; split; [lia|reflexivity]|].
  rewrite !orb_false_iff in E. destruct E as (((E1 & E2) & E3) & E4). apply Z.ltb_ge in E1, E3. apply Z.eqb_neq in E2.
  destruct (Z.leb_spec 0 w); do 2 eexists; (split; [reflexivity|]); [right|left].
  - split; [lia|]. split; [exact E4|reflexivity].
  - split; [lia|reflexivity].
Qed.
Lemma nextBlock_ok bat used inn : Forall moderate bat -> 0 <= inn ->
  exists u x, nextBlock big D bat used inn = Ret (u, x) /\ ((x < 0 /\ u = used) \/ (0 <= x <= mi /\ inset x used = false /\ u = x :: used)).
Proof. intros HM Hi. exact (chain_step bat mi used inn HM Hi). Qed.
Lemma nextSmallBlock_ok bat top used inn : Forall moderate bat -> 0 <= inn ->
  exists u x, nextSmallBlock big D bat top used inn = Ret (u, x) /\ ((x < 0 /\ u = used) \/ (0 <= x <= top /\ inset x used = false /\ u = x :: used)).
Proof. intros HM Hi. exact (chain_step bat top used inn HM Hi). Qed.

(** ** the static part of the state *)
Record ostat (s : ocore) : Prop := {
  os_data : oc_data s = D; os_bat : Forall moderate (oc_bat s); os_sbat : Forall moderate (oc_sbat s);
  os_sbatb : Forall (fun b => 0 <= b /\ moderate b) (oc_sbatb s) }.
Definition same_stat (s s' : ocore) : Prop :=
  oc_data s' = oc_data s /\ oc_bat s' = oc_bat s /\ oc_sbat s' = oc_sbat s /\ oc_sbatb s' = oc_sbatb s.
Lemma same_ostat s s' : same_stat s s' -> ostat s -> ostat s'.
Proof. intros (E1 & E2 & E3 & E4) [H1 H2 H3 H4]. split; congruence. Qed.

(** ** fillBuffer *)
Definition sidx (s : ocore) : Z := 8 * zlen (oc_sbatb s).
Definition uu (s : ocore) : nat := if oc_bs s =? 64 then unused (sidx s + 1) (oc_usedS s) else unused (mi + 1) (oc_used s).
Record odyn (s : ocore) : Prop := {
  od_stat : ostat s; od_bs : oc_bs s = 64 \/ oc_bs s = 512; od_off : 0 <= oc_off s < oc_bs s;
  od_done : 0 <= oc_done s <= oc_msize s;
  od_db : oc_done s < oc_msize s -> 0 <= oc_db s /\ (oc_bs s = 512 -> oc_db s <= mi) }.
(** the offset of the current block *)
Definition where_is (s : ocore) : out (option Z) :=
  if oc_bs s =? 64 then getCurrentSmallBlock s
  else let* b := chk32 (1 + oc_db s) in let* o := chk32 (b * 512) in Ret (Some o).
Lemma where_ok s : odyn s -> oc_done s < oc_msize s ->
  exists r, where_is s = Ret r /\ (forall d, r = Some d -> 0 <= d /\ d + oc_bs s <= zlen D) /\ (oc_bs s = 64 -> sidx s <= oc_db s -> r = None).
Proof.
  intros [HS Hbs Hoff Hdone Hdb] Hlt. specialize (Hdb Hlt). unfold where_is.
  destruct Hbs as [E|E]; rewrite E; [change (64 =? 64) with true|change (512 =? 64) with false]; cbv iota.
  - unfold getCurrentSmallBlock. rewrite Z.quot_div_nonneg, Z.rem_mod_nonneg by lia. pose proof (Z.div_pos (oc_db s) 8). pose proof (Z.mod_pos_bound (oc_db s) 8).
    destruct (Z.ltb_spec (oc_db s / 8) 0); [lia|]. destruct (zget (oc_sbatb s) (oc_db s / 8)) as [b|] eqn:Eb.
    2:{ eexists. split; [reflexivity|]. split; [intros; discriminate|reflexivity]. }
    assert (0 <= b /\ moderate b) as Hb by exact (zget_Forall _ _ _ _ (os_sbatb s HS) Eb). unfold moderate in Hb.
    rewrite (chk32_ok (1 + b)) by (unfold INT32_MIN, INT32_MAX; lia). cbn [bind].
    rewrite (chk32_ok (512 * (1 + b))) by (unfold INT32_MIN, INT32_MAX; lia). cbn [bind].
    rewrite chk32_ok by (unfold INT32_MIN, INT32_MAX; lia). cbn [bind]. rewrite (os_data s HS).
    eexists. split; [reflexivity|]. split.
    + intros d. destruct (Z.ltb_spec (zlen D - 64) (512 * (1 + b) + oc_db s mod 8 * 64)); intros E2; [discriminate|assert (d = 512 * (1 + b) + oc_db s mod 8 * 64) by congruence; lia].
    + intros _ Hi. apply zget_some_inv in Eb. unfold sidx in Hi. pose proof (Z.div_mod (oc_db s) 8). lia.
  - pose proof (mi_bound (oc_db s)). unfold INT32_MAX in HL.
    rewrite chk32_ok by (unfold INT32_MIN, INT32_MAX; lia). cbn [bind].
    rewrite chk32_ok by (unfold INT32_MIN, INT32_MAX; lia). cbn [bind].
    eexists. split; [reflexivity|]. split; [|lia]. intros d E2. assert (d = (1 + oc_db s) * 512) by congruence. lia.
Qed.
(** moving on to the next block *)
Definition advance (s : ocore) : out (list Z * list Z * Z) :=
  if oc_bs s =? 64
  then let* (u, x) := nextSmallBlock big (oc_data s) (oc_sbat s) (8 * zlen (oc_sbatb s)) (oc_usedS s) (oc_db s) in Ret (u, oc_used s, x)
  else let* (u, x) := nextBlock big (oc_data s) (oc_bat s) (oc_used s) (oc_db s) in Ret (oc_usedS s, u, x).
Lemma advance_ok s : odyn s -> oc_done s < oc_msize s ->
  exists us u x, advance s = Ret (us, u, x) /\
    ((x < 0 /\ us = oc_usedS s /\ u = oc_used s) \/
     (0 <= x /\ oc_bs s = 512 /\ x <= mi /\ us = oc_usedS s /\ inset x (oc_used s) = false /\ u = x :: oc_used s) \/
     (0 <= x /\ oc_bs s = 64 /\ x <= sidx s /\ u = oc_used s /\ inset x (oc_usedS s) = false /\ us = x :: oc_usedS s)).
Proof.
  intros [HS Hbs Hoff Hdone Hdb] Hlt. specialize (Hdb Hlt). unfold advance. rewrite (os_data s HS).
  destruct Hbs as [E|E]; rewrite E; [change (64 =? 64) with true|change (512 =? 64) with false]; cbv iota.
  - destruct (nextSmallBlock_ok (oc_sbat s) (8 * zlen (oc_sbatb s)) (oc_usedS s) (oc_db s)) as (u & x & -> & H); [apply (os_sbat s HS)|lia|]. cbn [bind].
    do 3 eexists. split; [reflexivity|]. destruct H as [H|H]; [left; tauto|right; right; unfold sidx; tauto].
  - destruct (nextBlock_ok (oc_bat s) (oc_used s) (oc_db s)) as (u & x & -> & H); [apply (os_bat s HS)|lia|]. cbn [bind].
    do 3 eexists. split; [reflexivity|]. destruct H as [H|H]; [left; tauto|right; left; tauto].
Qed.
Definition odo (s : ocore) usedS used db done off : ocore :=
  mkO (oc_data s) (oc_bat s) (oc_sbat s) (oc_sbatb s) usedS used (oc_tb s) (oc_ti s) db (oc_ss s) done off (oc_bs s) (oc_msize s).
Definition full (s : ocore) : Z := Z.min (oc_bs s - oc_off s) (oc_msize s - oc_done s).
Lemma fill_eq s space : odyn s -> oc_done s < oc_msize s -> 1 <= space ->
  ole_fill big s space =
  let n := Z.min space (full s) in
  let* d := where_is s in
  match d with
  | None => Ret (s, -1, [], true)
  | Some d =>
     let w := slice D (d + oc_off s) n in
     if oc_off s + n =? oc_bs s then
       let* (us, u, x) := advance s in
       if (x <? 0) && (negb (x =? -2) || negb (oc_done s + n =? oc_msize s)) then Ret (odo s us u x (oc_done s + n) 0, -1, w, true)
       else Ret (odo s us u x (oc_done s + n) 0, n, w, false)
     else Ret (odo s (oc_usedS s) (oc_used s) (oc_db s) (oc_done s + n) (oc_off s + n), n, w, false)
  end.
Proof.
  intros Hd Hlt Hsp. assert (Hd' := Hd). destruct Hd' as [HS Hbs Hoff Hdone Hdb]. unfold ole_fill.
  destruct (Z.eqb_spec (oc_done s) (oc_msize s)); [lia|]. cbv zeta.
  assert ((if (if oc_msize s - oc_done s <? oc_bs s - oc_off s then oc_msize s - oc_done s else oc_bs s - oc_off s) <? space
           then if oc_msize s - oc_done s <? oc_bs s - oc_off s then oc_msize s - oc_done s else oc_bs s - oc_off s else space) = Z.min space (full s)) as ->.
  { unfold full. destruct (Z.ltb_spec (oc_msize s - oc_done s) (oc_bs s - oc_off s)); zdest; lia. }
  change (if oc_bs s =? 64 then getCurrentSmallBlock s else let* b := chk32 (1 + oc_db s) in let* o := chk32 (b * 512) in Ret (Some o)) with (where_is s).
  destruct (where_ok s Hd Hlt) as (r & -> & Hr & _). cbn [bind]. destruct r as [d|]; [|reflexivity].
  destruct (Hr d eq_refl) as (Hd0 & Hd1). rewrite (os_data s HS). assert (full s <= oc_bs s - oc_off s /\ 1 <= full s) as Hf by (unfold full; lia).
  destruct (Z.ltb_spec d 0); [lia|]. destruct (Z.ltb_spec (zlen D) (d + Z.min space (full s))); [lia|]. cbn [orb].
  replace ((0 <=? d + oc_off s) && (0 <=? Z.min space (full s)) && (d + oc_off s + Z.min space (full s) <=? zlen D)) with true
    by (symmetry; rewrite !andb_true_iff, !Z.leb_le; lia).
  rewrite <- (os_data s HS). fold (advance s). reflexivity.
Qed.
End D.
