(** Proofs for C34. *)
From Verif Require Import Base StreamSpec TextSpec KmpSpec M_Kmp P_Kmp T_Kmp M_Ar M_Detect DetectSpec P_Stream.

Lemma starts_slice m d : starts m d <-> (zlen m <= zlen d /\ slice d 0 (zlen m) = m).
Proof.
  split.
  - intros (r & ->). rewrite zlen_app. pose proof (zlen_nonneg r). split; [lia|].
    rewrite slice_app_l by lia. apply slice_all.
  - intros (L & E). exists (skipn (length m) d). rewrite <- E at 1. unfold slice, zlen. rewrite Nat2Z.id.
    cbn [Z.to_nat skipn]. symmetry. apply firstn_skipn.
Qed.
Lemma list_eqb_iff a b : list_eqb a b = true <-> a = b.
Proof. unfold list_eqb. destruct (list_eq_dec Z.eq_dec a b); split; congruence. Qed.
Lemma memeq_ok d off m : 0 <= off -> off + zlen m <= zlen d -> exists b, memeq d off m = Ret b /\ (b = true <-> slice d off (zlen m) = m).
Proof.
  intros H1 H2. unfold memeq. destruct (Z.leb_spec 0 off); [|lia]. destruct (Z.leb_spec (off + zlen m) (zlen d)); [|lia].
  cbn [andb]. eexists. split; [reflexivity|]. apply list_eqb_iff.
Qed.
Lemma rdc_ok d i : 0 <= i < zlen d -> exists c, rdc d i = Ret c /\ zget d i = Some c.
Proof. intros H. destruct (zget_some d i H) as (c & E). exists c. unfold rdc. rewrite E. auto. Qed.
Lemma rdc_eq d i c : zget d i = Some c -> rdc d i = Ret c.
Proof. intros E. unfold rdc. rewrite E. reflexivity. Qed.

(** a simple magic at offset 0 *)
Lemma magic_ok m d k : zlen m = k -> exists b, (if zlen d <? k then Ret false else memeq d 0 m) = Ret b /\ (b = true <-> starts m d).
Proof.
  intros <-. destruct (Z.ltb_spec (zlen d) (zlen m)).
  - exists false. split; [reflexivity|]. rewrite starts_slice. split; [discriminate|lia].
  - destruct (memeq_ok d 0 m) as (b & E & Hb); [lia|lia|]. exists b. split; [exact E|]. rewrite Hb, starts_slice. tauto.
Qed.
Lemma ar_check_ok d : exists b, ar_check d = Ret b /\ (b = true <-> is_ar d).
Proof. apply magic_ok. reflexivity. Qed.
Lemma cpio_check_ok d : exists b, cpio_check d = Ret b /\ (b = true <-> is_cpio d).
Proof. apply magic_ok. reflexivity. Qed.
Lemma rpm_check_ok d : exists b, rpm_check d = Ret b /\ (b = true <-> is_rpm d).
Proof. apply magic_ok. reflexivity. Qed.
Lemma zip_check_ok d : exists b, zip_check d = Ret b /\ (b = true <-> is_zip d).
Proof.
  unfold zip_check, is_zip. set (m := [80;75;3;4]). assert (zlen m = 4) as Hm by reflexivity.
  setoid_rewrite starts_slice. destruct (Z.ltb_spec (zlen d) 4).
  - exists false. split; [reflexivity|]. split; [discriminate|lia].
  - destruct (memeq_ok d 0 m) as (b & E & Hb); [lia|lia|]. rewrite E. cbn [bind]. eexists. split; [reflexivity|].
    rewrite andb_true_iff, Hb, Z.ltb_lt, Hm. split; intros; intuition lia.
Qed.
Lemma ole_check_ok d : exists b, ole_check d = Ret b /\ (b = true <-> is_ole d).
Proof.
  unfold ole_check, is_ole. set (m := [208;207;17;224;161;177;26;225]). assert (zlen m = 8) as Hm by reflexivity.
  setoid_rewrite starts_slice. destruct (Z.ltb_spec 8 (zlen d)).
  - destruct (memeq_ok d 0 m) as (b & E & Hb); [lia|lia|]. rewrite E. exists b. split; [reflexivity|].
    rewrite Hb. intuition lia.
  - exists false. split; [reflexivity|]. split; [discriminate|lia].
Qed.
Lemma zget0 {A} (x : A) l : zget (x :: l) 0 = Some x.
Proof. reflexivity. Qed.
Lemma gzip_check_ok d : exists b, gzip_check d = Ret b /\ (b = true <-> is_gzip d).
Proof.
  unfold gzip_check, is_gzip. destruct (Z.ltb_spec 2 (zlen d)).
  - destruct d as [|a [|b d]]; [unfold zlen in H; cbn [length] in H; lia|unfold zlen in H; cbn [length] in H; lia|].
    change (rdc (a :: b :: d) 0) with (Ret a). change (rdc (a :: b :: d) 1) with (Ret b). cbn [bind].
    destruct (Z.eqb_spec a 31).
    + eexists. split; [reflexivity|]. rewrite Z.eqb_eq. subst. split.
      * intros ->. split; [|lia]. exists d. reflexivity.
      * intros ((r & E) & _). cbn in E. congruence.
    + exists false. split; [reflexivity|]. split; [discriminate|]. intros ((r & E) & _). cbn in E. congruence.
  - exists false. split; [reflexivity|]. split; [discriminate|]. lia.
Qed.
Lemma bz2_check_ok d : exists b, bz2_check d = Ret b /\ (b = true <-> is_bz2 d).
Proof.
  unfold bz2_check, is_bz2. destruct (Z.ltb_spec (zlen d) 10) as [H|H].
  - exists false. split; [reflexivity|]. split; [discriminate|]. intros (v & l & _ & r & E).
    subst d. rewrite zlen_app in H. change (zlen ([66; 90; v; l] ++ [49; 65; 89; 38; 83; 89])) with 10 in H. pose proof (zlen_nonneg r). lia.
  - do 10 (destruct d as [|? d]; [unfold zlen in H; cbn [length] in H; lia|]). clear H.
    match goal with |- context [memeq ?D 0 ?m] => destruct (memeq_ok D 0 m) as (b & E & Hb); [lia|cbn; unfold zlen; cbn [length]; lia|]; rewrite E; clear E;
      destruct (memeq_ok D 4 [49;65;89;38;83;89]) as (b2 & E2 & Hb2); [lia|unfold zlen; cbn [length]; lia|]; rewrite E2; clear E2 end.
    match goal with |- context [rdc ?D 2] => change (rdc D 2) with (Ret z1) end. cbn [bind].
    change (slice (z :: z0 :: z1 :: z2 :: z3 :: z4 :: z5 :: z6 :: z7 :: z8 :: d) 0 (zlen [66; 90])) with [z;z0] in Hb.
    change (slice (z :: z0 :: z1 :: z2 :: z3 :: z4 :: z5 :: z6 :: z7 :: z8 :: d) 4 (zlen [49;65;89;38;83;89])) with [z3;z4;z5;z6;z7;z8] in Hb2.
    destruct b; cbn [negb].
    + destruct Hb as (Hb & _). specialize (Hb eq_refl). injection Hb as -> ->.
      destruct (Z.eqb_spec z1 104), (Z.eqb_spec z1 48); cbn [orb negb].
      * lia.
      * exists b2. split; [reflexivity|]. rewrite Hb2. split.
        -- intros E. injection E as -> -> -> -> -> ->. exists z1, z2. split; [auto|]. exists d. reflexivity.
        -- intros (v & l & Hv & r & E). cbn in E. congruence.
      * exists b2. split; [reflexivity|]. rewrite Hb2. split.
        -- intros E. injection E as -> -> -> -> -> ->. exists z1, z2. split; [auto|]. exists d. reflexivity.
        -- intros (v & l & Hv & r & E). cbn in E. congruence.
      * exists false. split; [reflexivity|]. split; [discriminate|]. intros (v & l & Hv & r & E). cbn in E.
        injection E as -> _. destruct Hv; congruence.
    + exists false. split; [reflexivity|]. split; [discriminate|]. intros (v & l & Hv & r & E). cbn in E.
      destruct Hb as (_ & Hb). apply Hb. congruence.
Qed.

(** ** lzma *)
Lemma rd_le_ok n d i : 0 <= i -> i + Z.of_nat n <= zlen d -> rd_le n d i = Ret (le_value (slice d i (Z.of_nat n))).
Proof.
  revert i. induction n as [|n IH]; intros i H1 H2.
  - rewrite slice_neg by lia. reflexivity.
  - cbn [rd_le]. destruct (rdc_ok d i) as (c & E & G); [lia|]. rewrite E. cbn [bind]. rewrite IH by lia. cbn [bind].
    replace (Z.of_nat (S n)) with (1 + Z.of_nat n) by lia. rewrite <- slice_app by lia.
    replace (slice d i 1) with [c]; [reflexivity|].
    apply zget_ext_range; [rewrite zlen_slice by lia; reflexivity|].
    change (zlen [c]) with 1. intros j Hj. rewrite zget_slice by lia.
    replace j with 0 by lia. cbn [Z.leb Z.ltb Z.compare andb]. rewrite Z.add_0_r, G. reflexivity.
Qed.
Lemma le_value_max l : Forall (fun c => 0 <= c < 256) l -> 0 <= le_value l < 256 ^ zlen l.
Proof.
  induction 1 as [|c l Hc Hl IH]; [change (0 <= 0 < 1); lia|]. cbn [le_value]. rewrite zlen_cons.
  pose proof (zlen_nonneg l). rewrite Z.pow_add_r by lia. change (256 ^ 1) with 256. lia.
Qed.
Lemma bytes_slice l o n : bytes l -> bytes (slice l o n).
Proof.
  unfold bytes. rewrite !Forall_forall. intros H x Hx. apply H. unfold slice in Hx. apply In_nth_error in Hx. destruct Hx as (k & Hk).
  rewrite nth_error_firstn', nth_error_skipn' in Hk. destruct (Nat.ltb k _); [|discriminate]. eapply nth_error_In. exact Hk.
Qed.
Lemma split4 (d : list Z) : 13 <= zlen d -> d = slice d 0 1 ++ slice d 1 4 ++ slice d 5 8 ++ skipn 13 d.
Proof.
  intros H. replace (skipn 13 d) with (slice d (5 + 8) (zlen d - 13)).
  2: { rewrite slice_to_end by lia. reflexivity. }
  rewrite slice_app by lia. replace 5 with (1 + 4) at 1 by lia. rewrite slice_app by lia.
  replace 1 with (0 + 1) at 2 by lia. rewrite slice_app by lia.
  replace (1 + (4 + (8 + (zlen d - 13)))) with (zlen d) by lia. symmetry. apply slice_all.
Qed.
Lemma slice_head (d : list Z) c : zget d 0 = Some c -> slice d 0 1 = [c].
Proof. destruct d; [discriminate|]. intros E. change (Some z = Some c) in E. injection E as ->. reflexivity. Qed.
Lemma lzma_check_ok d : bytes d -> exists b, lzma_check d = Ret b /\ (b = true <-> is_lzma d).
Proof.
  intros HB. unfold lzma_check, is_lzma. change (5 + 8) with 13.
  destruct (Z.ltb_spec (zlen d) 13) as [H|H].
  { exists false. split; [reflexivity|]. split; [discriminate|]. intros (di & sz & H1 & H2 & (r & E) & _).
    subst d. rewrite !zlen_app in H. change (zlen [93]) with 1 in H. pose proof (zlen_nonneg r). lia. }
  destruct (rdc_ok d 0) as (a & -> & Ga); [lia|]. destruct (rdc_ok d 1) as (b & -> & Gb); [lia|]. cbn [bind].
  rewrite !rd_le_ok by lia. cbn [bind].
  change (Z.of_nat 4) with 4. change (Z.of_nat 8) with 8.
  set (D := slice d 1 4). set (S := slice d 5 8).
  assert (zlen D = 4) as LD by (apply zlen_slice; lia). assert (zlen S = 8) as LS by (apply zlen_slice; lia).
  assert (Forall (fun c => 0 <= c < 256) D) as BD by (apply bytes_slice; exact HB).
  assert (Forall (fun c => 0 <= c < 256) S) as BS by (apply bytes_slice; exact HB).
  pose proof (le_value_max S BS) as MS. rewrite LS in MS. pose proof (le_value_max D BD) as MD. rewrite LD in MD.
  change (256 ^ 8) with 18446744073709551616 in MS.
  assert ((exists di sz, zlen di = 4 /\ zlen sz = 8 /\ starts ([93] ++ di ++ sz) d /\ starts [0] di /\
     (let D := Z.max 4096 (le_value di) in let S := twos 8 (le_value sz) in D <= 2 ^ 25 /\ (S = -1 \/ D < S < 2 ^ 40)))
     <-> (a = 93 /\ b = 0 /\ let D := Z.max 4096 (le_value D) in let S := twos 8 (le_value S) in D <= 2 ^ 25 /\ (S = -1 \/ D < S < 2 ^ 40))) as EQ.
  { split.
    - intros (di & sz & L1 & L2 & (r & E) & (q & Eq) & Hcond).
      assert (D = di) as ->. { unfold D. rewrite E. rewrite <- !app_assoc. rewrite slice_app_r by (change (zlen [93]) with 1; lia).
        change (zlen [93]) with 1. change (1 - 1) with 0. rewrite slice_app_l by lia. rewrite <- L1. apply slice_all. }
      assert (S = sz) as ->. { unfold S. rewrite E. rewrite <- !app_assoc. rewrite slice_app_r by (change (zlen [93]) with 1; lia).
        change (zlen [93]) with 1. rewrite slice_app_r by lia. rewrite L1. change (5 - 1 - 4) with 0. rewrite slice_app_l by lia. rewrite <- L2. apply slice_all. }
      split; [|split; [|exact Hcond]].
      + rewrite E in Ga. change (Some 93 = Some a) in Ga. congruence.
      + rewrite E, Eq in Gb. change (Some 0 = Some b) in Gb. congruence.
    - intros (-> & -> & Hcond). exists D, S. split; [exact LD|]. split; [exact LS|]. split; [|split; [|exact Hcond]].
      + exists (skipn 13 d). rewrite <- !app_assoc. rewrite <- (slice_head d 93 Ga). apply split4. exact H.
      + exists (slice d 2 3). change [0] with (slice [0] 0 1). 
        unfold D. replace 4 with (1 + 3) by lia. rewrite <- slice_app by lia. f_equal.
        apply zget_ext_range; [rewrite zlen_slice by lia; reflexivity|]. rewrite zlen_slice by lia. intros j Hj.
        rewrite zget_slice by lia. replace j with 0 by lia. cbn [Z.leb Z.ltb Z.compare andb]. exact Gb. }
  setoid_rewrite EQ. clear EQ.
  destruct (Z.eqb_spec a 93) as [->|]; cbn [negb].
  2: { exists false. split; [reflexivity|]. split; [discriminate|]. intros (E & _). congruence. }
  destruct (Z.eqb_spec b 0) as [->|]; cbn [negb].
  2: { exists false. split; [reflexivity|]. split; [discriminate|]. intros (_ & E & _). congruence. }
  eexists. split; [reflexivity|]. cbv zeta. change (93 <? 9 * 5 * 5) with true. cbn [andb].
  replace (if le_value D <? 4096 then 4096 else le_value D) with (Z.max 4096 (le_value D)) by (destruct (Z.ltb_spec (le_value D) 4096); lia).
  unfold twos. change (256 ^ 8 / 2) with 9223372036854775808. change (256 ^ 8) with 18446744073709551616.
  set (s := if le_value S <? 9223372036854775808 then _ else _).
  rewrite andb_true_iff, orb_true_iff, andb_true_iff, Z.leb_le, Z.eqb_eq, !Z.ltb_lt. change (2 ^ 25) with 33554432. change (2 ^ 40) with 1099511627776.
  tauto.
Qed.

(** ** tar *)
Lemma scan_while_ok test k d p : 0 <= p -> p + Z.of_nat k <= zlen d ->
  exists q, scan_while test k d p = Ret q /\ p <= q <= p + Z.of_nat k /\
    (forall i c, p <= i < q -> zget d i = Some c -> test c = true) /\
    (q < p + Z.of_nat k -> exists c, zget d q = Some c /\ test c = false).
Proof.
  revert p. induction k as [|k IH]; intros p H1 H2.
  - exists p. split; [reflexivity|]. split; [lia|]. split; [lia|]. lia.
  - cbn [scan_while]. destruct (rdc_ok d p) as (c & -> & G); [lia|]. cbn [bind]. destruct (test c) eqn:T.
    + destruct (IH (p + 1)) as (q & E & B & F1 & F2); [lia|lia|]. exists q. split; [exact E|]. split; [lia|]. split.
      * intros i x Hi Hx. destruct (Z.eq_dec i p) as [->|]; [congruence|]. apply (F1 i x); [lia|exact Hx].
      * intros Hq. apply F2. lia.
    + exists p. split; [reflexivity|]. split; [lia|]. split; [lia|]. intros _. exists c. auto.
Qed.
Lemma name_pad (d : list Z) n : 0 <= n <= zlen d ->
  (exists name z, slice d 0 n = name ++ repeat 0 z /\ ~ In 0 name) <->
  (exists k, 0 <= k <= n /\ (forall i, 0 <= i < k -> zget d i <> Some 0) /\ (forall i, k <= i < n -> zget d i = Some 0)).
Proof.
  intros Hn. split.
  - intros (nm & z & E & Hnm). pose proof (zlen_slice d 0 n ltac:(lia) ltac:(lia) ltac:(lia)) as L. rewrite E in L.
    rewrite zlen_app, zlen_repeat in L. pose proof (zlen_nonneg nm). exists (zlen nm). split; [lia|].
    assert (forall i, 0 <= i < n -> zget d i = zget (nm ++ repeat 0 z) i) as G.
    { intros i Hi. rewrite <- E. rewrite zget_slice by lia. destruct (Z.leb_spec 0 i), (Z.ltb_spec i n); try lia. reflexivity. }
    split; intros i Hi.
    + rewrite G by lia. rewrite zget_app. destruct (Z.ltb_spec i (zlen nm)); [|lia]. intros C. apply Hnm.
      unfold zget in C. destruct (i <? 0); [discriminate|]. eapply nth_error_In. exact C.
    + rewrite G by lia. rewrite zget_app. destruct (Z.ltb_spec i (zlen nm)); [lia|]. rewrite zget_repeat.
      destruct (Z.leb_spec 0 (i - zlen nm)), (Z.ltb_spec (i - zlen nm) (Z.of_nat z)); try lia. reflexivity.
  - intros (k & Hk & H1 & H2). exists (slice d 0 k), (Z.to_nat (n - k)). split.
    + apply zget_ext_range.
      * rewrite zlen_app, zlen_repeat, !zlen_slice by lia. lia.
      * rewrite zlen_slice by lia. intros i Hi. rewrite zget_app, zlen_slice, zget_repeat, !zget_slice by lia.
        destruct (Z.leb_spec 0 i), (Z.ltb_spec i n), (Z.ltb_spec i k); try lia; cbn [andb]; [reflexivity|].
        destruct (Z.leb_spec 0 (i - k)), (Z.ltb_spec (i - k) (Z.of_nat (Z.to_nat (n - k)))); try lia. cbn [andb]. apply H2. lia.
    + intros C. apply In_nth_error in C. destruct C as (j & C).
      assert (zget (slice d 0 k) (Z.of_nat j) = Some 0) as C2.
      { unfold zget. destruct (Z.ltb_spec (Z.of_nat j) 0); [lia|]. rewrite Nat2Z.id. exact C. }
      rewrite zget_slice in C2 by lia. destruct (Z.leb_spec 0 (Z.of_nat j)), (Z.ltb_spec (Z.of_nat j) k); cbn [andb] in C2; try discriminate.
      apply (H1 (0 + Z.of_nat j)); [lia|exact C2].
Qed.
Lemma tar_check_ok d : exists b, tar_check d = Ret b /\ (b = true <-> is_tar d).
Proof.
  unfold tar_check, is_tar. destruct (Z.ltb_spec (zlen d) 257) as [H|H].
  { exists false. split; [reflexivity|]. split; [discriminate|lia]. }
  setoid_rewrite (name_pad d 100); [|lia].
  destruct (scan_while_ok (fun c => negb (c =? 0)) 100 d 0) as (p & -> & Bp & F1 & F2); [lia|lia|]. cbn [bind].
  destruct (scan_while_ok (fun c => c =? 0) (Z.to_nat (100 - p)) d p) as (q & -> & Bq & F3 & F4); [lia|lia|]. cbn [bind].
  destruct (Z.ltb_spec q 100).
  { exists false. split; [reflexivity|]. split; [discriminate|]. intros (_ & (k & Hk & K1 & K2) & _). exfalso.
    destruct F4 as (c & Gc & Tc); [lia|]. apply Z.eqb_neq in Tc.
    destruct (Z.lt_ge_cases q k) as [L|L].
    - destruct (Z.eq_dec p q) as [->|].
      + destruct F2 as (c' & Gc' & Tc'); [lia|]. destruct (Z.eqb_spec c' 0); [|discriminate]. congruence.
      + destruct F2 as (c' & Gc' & Tc'); [lia|]. destruct (Z.eqb_spec c' 0); [|discriminate]. subst c'. apply (K1 p); [lia|exact Gc'].
    - rewrite (K2 q) in Gc by lia. congruence. }
  assert (q = 100) as -> by lia.
  destruct (scan_while_ok (fun c => c =? 0) (Z.to_nat (256 - 100)) d 100) as (r & -> & Br & F5 & F6); [lia|lia|]. cbn [bind].
  destruct (Z.eqb_spec r 256) as [->|Hr].
  { exists false. split; [reflexivity|]. split; [discriminate|]. intros (_ & _ & (i & Hi & Ni) & _). exfalso.
    destruct (zget_some d i) as (c & Gc); [lia|]. pose proof (F5 i c ltac:(lia) Gc) as T. apply Z.eqb_eq in T. congruence. }
  destruct (rdc_ok d 107) as (c1 & -> & ->); [lia|]. destruct (rdc_ok d 115) as (c2 & -> & ->); [lia|].
  destruct (rdc_ok d 123) as (c3 & -> & ->); [lia|]. destruct (rdc_ok d 135) as (c4 & -> & ->); [lia|].
  destruct (rdc_ok d 147) as (c5 & -> & ->); [lia|]. destruct (rdc_ok d 256) as (c6 & -> & ->); [lia|]. cbn [bind].
  eexists. split; [reflexivity|].
  assert (exists k, 0 <= k <= 100 /\ (forall i, 0 <= i < k -> zget d i <> Some 0) /\ (forall i, k <= i < 100 -> zget d i = Some 0)) as HN.
  { exists p. split; [lia|]. split.
    - intros i Hi C. pose proof (F1 i 0 ltac:(lia) C). discriminate.
    - intros i Hi. destruct (zget_some d i) as (c & Gc); [lia|]. pose proof (F3 i c ltac:(lia) Gc) as T. apply Z.eqb_eq in T. congruence. }
  assert (exists i, 100 <= i < 256 /\ zget d i <> Some 0) as HZ.
  { exists r. split; [lia|]. destruct F6 as (c & Gc & Tc); [lia|]. apply Z.eqb_neq in Tc. congruence. }
  assert (forall x y : Z, Some x = Some y <-> x = y) as SE by (intros; split; congruence).
  rewrite !SE. rewrite negb_true_iff. clear - H HN HZ.
  destruct (Z.eqb_spec c1 0), (Z.eqb_spec c2 0), (Z.eqb_spec c3 0), (Z.eqb_spec c4 0), (Z.eqb_spec c4 32), (Z.eqb_spec c5 0), (Z.eqb_spec c5 32), (Z.eqb_spec c6 0);
    cbn [negb orb andb]; split; intros; try discriminate; try reflexivity; intuition lia.
Qed.

(** ** mail *)
Fixpoint mrun (s : mstate) (w : list Z) : option mstate :=
  match w with [] => Some s | c :: w' => match mail_step s c with None => None | Some s' => mrun s' w' end end.
Lemma mail_loop_run pre w s : mail_loop (length w) (pre ++ w) (zlen pre) s = Ret (match mrun s w with Some _ => true | None => false end).
Proof.
  revert pre s. induction w as [|c w IH]; intros pre s; [reflexivity|]. cbn [length mail_loop mrun].
  assert (zget (pre ++ c :: w) (zlen pre) = Some c) as G.
  { rewrite zget_app. destruct (Z.ltb_spec (zlen pre) (zlen pre)); [lia|]. rewrite Z.sub_diag. reflexivity. }
  rewrite (rdc_eq _ _ _ G). cbn [bind]. destruct (mail_step s c) as [s'|]; [|reflexivity].
  specialize (IH (pre ++ [c]) s'). rewrite <- app_assoc, zlen_app in IH. exact IH.
Qed.
Lemma mrun_app s a b : mrun s (a ++ b) = match mrun s a with None => None | Some s' => mrun s' b end.
Proof. revert s; induction a as [|c a IH]; intros s; [reflexivity|]. cbn [app mrun]. destruct (mail_step s c); [apply IH|reflexivity]. Qed.

Definition LHdrs (w : list Z) : Prop := exists fs body, w = concat fs ++ [13;10] ++ body /\ Forall field fs /\ Forall ascii body.
Definition LValue (w : list Z) : Prop := exists v rest, w = v ++ [13;10] ++ rest /\ field_value v /\ LHdrs rest.
Definition LName (w : list Z) : Prop := exists n rest, w = n ++ 58 :: rest /\ Forall name_char n /\ LValue rest.
Definition L (s : mstate) (w : list Z) : Prop :=
  match s with
  | InName => LName w
  | InValue => LValue w
  | MaybeNewLine => LValue (13 :: w)
  | PossibleName => LHdrs w \/ exists c w', w = c :: w' /\ (c = 32 \/ c = 9) /\ LValue w'
  | MaybeEnd => exists body, w = 10 :: body /\ Forall ascii body
  | InBody => Forall ascii w
  end.
Lemma LName_LHdrs w : LName w -> LHdrs w.
Proof.
  intros (n & rest & -> & Hn & (v & r2 & -> & Hv & (fs & body & -> & Hf & Hb))).
  exists ((n ++ [58] ++ v ++ [13;10]) :: fs), body. split; [|split; [|exact Hb]].
  - cbn [concat]. rewrite <- !app_assoc. reflexivity.
  - constructor; [|exact Hf]. exists n, v. auto.
Qed.
Lemma LValue_char c w : ascii c -> c <> 13 -> LValue w -> LValue (c :: w).
Proof. intros Hc H13 (v & rest & -> & Hv & Hr). exists (c :: v), rest. split; [reflexivity|]. split; [apply fv_char; auto|exact Hr]. Qed.
Lemma LValue_cr w : (forall r, w <> 10 :: r) -> LValue w -> LValue (13 :: w).
Proof.
  intros Hw (v & rest & -> & Hv & Hr). exists (13 :: v), rest. split; [reflexivity|]. split; [|exact Hr].
  apply fv_cr; [|exact Hv]. intros r ->. apply (Hw (r ++ [13;10] ++ rest)). reflexivity.
Qed.
Lemma value_step_inv c s : 0 <= c < 256 -> value_step c = Some s -> (c = 13 /\ s = MaybeNewLine) \/ (c <> 13 /\ ascii c /\ s = InValue).
Proof.
  unfold value_step, ascii. intros B E. destruct (Z.eqb_spec c 13); [left; split; congruence|].
  destruct (Z.leb_spec 128 c); [discriminate|]. right. split; [assumption|]. split; [lia|congruence].
Qed.
Lemma name_step_inv c s : 0 <= c < 256 -> name_step c = Some s -> (c = 58 /\ s = InValue) \/ (name_char c /\ s = InName).
Proof.
  unfold name_step, name_char. intros B E. destruct (Z.eqb_spec c 58); [left; split; congruence|].
  destruct (Z.eqb_spec c 32); [discriminate|]. destruct (Z.eqb_spec c 9); [discriminate|]. cbn [orb] in E.
  destruct (Z.leb_spec 128 c); [discriminate|]. destruct (Z.leb_spec c 31); [discriminate|].
  destruct (Z.eqb_spec c 127); [discriminate|]. cbn [orb] in E. right. split; [lia|congruence].
Qed.
Lemma L_sound w : forall s, bytes w -> mrun s w = Some InBody -> L s w.
Proof.
  induction w as [|c w IH]; intros s HB E.
  - cbn in E. injection E as ->. constructor.
  - inversion HB as [|? ? Bc Bw]; subst. cbn [mrun] in E. destruct (mail_step s c) as [s'|] eqn:S; [|discriminate].
    specialize (IH s' Bw E). destruct s; cbn [mail_step] in S; cbn [L].
    + destruct (name_step_inv c s' Bc S) as [(-> & ->)|(Hc & ->)].
      * exists [], w. split; [reflexivity|]. split; [constructor|exact IH].
      * destruct IH as (n & rest & -> & Hn & Hr). exists (c :: n), rest. split; [reflexivity|]. split; [constructor; auto|exact Hr].
    + destruct (value_step_inv c s' Bc S) as [(-> & ->)|(Hc & Ha & ->)]; [exact IH|]. apply LValue_char; auto.
    + destruct (Z.eqb_spec c 10) as [->|H10].
      * injection S as <-. destruct IH as [IH|(b & w' & -> & Hb & IH)].
        -- exists [], w. split; [reflexivity|]. split; [constructor|exact IH].
        -- destruct IH as (v & rest & -> & Hv & Hr). exists (13 :: 10 :: b :: v), rest. split; [reflexivity|]. split; [apply fv_fold; auto|exact Hr].
      * apply LValue_cr; [congruence|]. destruct (value_step_inv c s' Bc S) as [(-> & ->)|(Hc & Ha & ->)]; [exact IH|]. apply LValue_char; auto.
    + destruct (Z.eqb_spec c 32) as [->|H32]; [injection S as <-; right; exists 32, w; auto|].
      destruct (Z.eqb_spec c 9) as [->|H9]; [injection S as <-; right; exists 9, w; auto|]. cbn [orb] in S.
      destruct (Z.eqb_spec c 13) as [->|H13].
      * injection S as <-. left. destruct IH as (body & -> & Hb). exists [], body. split; [reflexivity|]. split; [constructor|exact Hb].
      * left. apply LName_LHdrs. destruct (name_step_inv c s' Bc S) as [(-> & ->)|(Hc & ->)].
        -- exists [], w. split; [reflexivity|]. split; [constructor|exact IH].
        -- destruct IH as (n & rest & -> & Hn & Hr). exists (c :: n), rest. split; [reflexivity|]. split; [constructor; auto|exact Hr].
    + destruct (Z.eqb_spec c 10) as [->|]; [|discriminate]. injection S as <-. exists w. auto.
    + destruct (Z.leb_spec 128 c); [discriminate|]. injection S as <-. constructor; [unfold ascii; lia|exact IH].
Qed.
Lemma mrun_body w : Forall ascii w -> mrun InBody w = Some InBody.
Proof. induction 1 as [|c w Hc Hw IH]; [reflexivity|]. cbn [mrun mail_step]. unfold ascii in Hc. destruct (Z.leb_spec 128 c); [lia|exact IH]. Qed.
Lemma name_step_ok c : name_char c -> name_step c = Some InName.
Proof.
  intros (H1 & H2). unfold name_step. destruct (Z.eqb_spec c 58); [lia|]. destruct (Z.eqb_spec c 32); [lia|]. destruct (Z.eqb_spec c 9); [lia|].
  cbn [orb]. destruct (Z.leb_spec 128 c); [lia|]. destruct (Z.leb_spec c 31); [lia|]. destruct (Z.eqb_spec c 127); [lia|]. reflexivity.
Qed.
Lemma mrun_name n : Forall name_char n -> mrun InName n = Some InName.
Proof. induction 1 as [|c w Hc Hw IH]; [reflexivity|]. cbn [mrun mail_step]. rewrite name_step_ok by exact Hc. exact IH. Qed.
Lemma mrun_maybe c w : c <> 10 -> mrun MaybeNewLine (c :: w) = mrun InValue (c :: w).
Proof. intros H. cbn [mrun mail_step]. destruct (Z.eqb_spec c 10); [congruence|reflexivity]. Qed.
Lemma mrun_value v rest : field_value v -> mrun InValue (v ++ [13;10] ++ rest) = mrun PossibleName rest.
Proof.
  induction 1 as [|c v Hc H13 Hv IH|v Hn Hv IH|c v Hc Hv IH].
  - reflexivity.
  - cbn [app mrun mail_step]. unfold value_step, ascii in *. destruct (Z.eqb_spec c 13); [congruence|]. destruct (Z.leb_spec 128 c); [lia|]. exact IH.
  - cbn [app]. change (mrun MaybeNewLine (v ++ [13;10] ++ rest) = mrun PossibleName rest).
    destruct v as [|c v]; [reflexivity|]. cbn [app] in *. rewrite mrun_maybe; [exact IH|]. intros ->. eapply Hn. reflexivity.
  - cbn [app]. change (match mail_step PossibleName c with None => None | Some s' => mrun s' (v ++ [13;10] ++ rest) end = mrun PossibleName rest).
    destruct Hc as [-> | ->]; exact IH.
Qed.
Lemma possible_name w : LName w -> mrun PossibleName w = mrun InName w.
Proof.
  intros (n & rest & -> & Hn & _). destruct n as [|c n]; [reflexivity|]. cbn [app mrun]. inversion Hn as [|? ? Hc Hn']; subst.
  cbn [mail_step]. destruct Hc as (H1 & H2). destruct (Z.eqb_spec c 32); [lia|]. destruct (Z.eqb_spec c 9); [lia|]. cbn [orb].
  destruct (Z.eqb_spec c 13); [lia|]. reflexivity.
Qed.
Lemma field_run f rest : field f -> mrun InName (f ++ rest) = mrun PossibleName rest.
Proof.
  intros (n & v & -> & Hn & Hv). rewrite <- !app_assoc. rewrite mrun_app, mrun_name by exact Hn.
  change (mrun InValue (v ++ [13;10] ++ rest) = mrun PossibleName rest). apply mrun_value. exact Hv.
Qed.
Lemma field_possible f rest : field f -> mrun PossibleName (f ++ rest) = mrun InName (f ++ rest).
Proof.
  intros (n & v & -> & Hn & Hv). destruct n as [|c n]; [reflexivity|]. cbn [app mrun]. inversion Hn as [|? ? Hc Hn']; subst.
  cbn [mail_step]. destruct Hc as (H1 & H2). destruct (Z.eqb_spec c 32); [lia|]. destruct (Z.eqb_spec c 9); [lia|]. cbn [orb].
  destruct (Z.eqb_spec c 13); [lia|]. reflexivity.
Qed.
Lemma hdrs_run fs body : Forall field fs -> Forall ascii body -> mrun PossibleName (concat fs ++ [13;10] ++ body) = Some InBody.
Proof.
  intros Hf Hb. induction Hf as [|f fs Hf1 Hf IH].
  - change (mrun InBody body = Some InBody). apply mrun_body. exact Hb.
  - cbn [concat]. rewrite <- app_assoc. rewrite field_possible, field_run by exact Hf1. exact IH.
Qed.
Lemma message_run m : message m -> mrun InName m = Some InBody.
Proof.
  intros (fs & body & -> & Hne & Hf & Hb). destruct fs as [|f fs]; [congruence|]. inversion Hf as [|? ? H1 H2]; subst.
  cbn [concat]. rewrite <- app_assoc. rewrite field_run by exact H1. apply hdrs_run; assumption.
Qed.
Lemma LName_message m : LName m -> message m.
Proof.
  intros (n & rest & -> & Hn & (v & r2 & -> & Hv & (fs & body & -> & Hf & Hb))).
  exists ((n ++ [58] ++ v ++ [13;10]) :: fs), body. split; [|split; [discriminate|split; [|exact Hb]]].
  - cbn [concat]. rewrite <- !app_assoc. reflexivity.
  - constructor; [|exact Hf]. exists n, v. auto.
Qed.
Lemma completion s : exists rest, bytes rest /\ mrun s rest = Some InBody.
Proof.
  destruct s.
  - exists [58;13;10;13;10]. split; [repeat (apply Forall_cons; [lia|]); apply Forall_nil|reflexivity].
  - exists [13;10;13;10]. split; [repeat (apply Forall_cons; [lia|]); apply Forall_nil|reflexivity].
  - exists [10;13;10]. split; [repeat (apply Forall_cons; [lia|]); apply Forall_nil|reflexivity].
  - exists [13;10]. split; [repeat (apply Forall_cons; [lia|]); apply Forall_nil|reflexivity].
  - exists [10]. split; [repeat (apply Forall_cons; [lia|]); apply Forall_nil|reflexivity].
  - exists []. split; [apply Forall_nil|reflexivity].
Qed.
Lemma mail_check_ok d : bytes d -> exists b, mail_check d = Ret b /\ (b = true <-> is_mail d).
Proof.
  intros HB. unfold mail_check. pose proof (mail_loop_run [] d InName) as E. cbn [app] in E. change (zlen (@nil Z)) with 0 in E.
  rewrite E. eexists. split; [reflexivity|]. unfold is_mail. destruct (mrun InName d) as [s|] eqn:R; split; intros H.
  - destruct (completion s) as (rest & Br & C). exists rest. apply LName_message. apply (L_sound (d ++ rest) InName).
    + apply Forall_app. auto.
    + rewrite mrun_app, R. exact C.
  - reflexivity.
  - discriminate.
  - destruct H as (rest & H). apply message_run in H. rewrite mrun_app, R in H. discriminate.
Qed.

(** ** sdf *)
Lemma skipn_zlen {A} (pre w : list A) : skipn (Z.to_nat (zlen pre)) (pre ++ w) = w.
Proof. unfold zlen. rewrite Nat2Z.id, skipn_app, skipn_all, Nat.sub_diag. reflexivity. Qed.
Lemma zget_pre {A} (pre w : list A) i : 0 <= i -> zget (pre ++ w) (zlen pre + i) = zget w i.
Proof. intros H. rewrite zget_app. destruct (Z.ltb_spec (zlen pre + i) (zlen pre)); [lia|]. f_equal. lia. Qed.
Definition eol (c : Z) : Prop := c = 10 \/ c = 13.
Lemma ends_line_head e rest : ends_line e rest -> exists c e', e = c :: e' /\ eol c /\ zlen e <= 2.
Proof.
  unfold eol. intros [-> |[-> |(-> & _)]].
  - exists 10, []. split; [reflexivity|]. split; [auto|]. change (1 <= 2). lia.
  - exists 13, [10]. split; [reflexivity|]. split; [auto|]. change (2 <= 2). lia.
  - exists 13, []. split; [reflexivity|]. split; [auto|]. change (1 <= 2). lia.
Qed.
Lemma skip80_complete pre l e rest : line80 l -> ends_line e rest -> rest <> [] ->
  skip80Line (pre ++ l ++ e ++ rest) (zlen pre) = Ret (Some (zlen (pre ++ l ++ e))).
Proof.
  intros (L80 & N10 & N13) HE Hne. set (d := pre ++ l ++ e ++ rest). unfold skip80Line.
  assert (zlen d = zlen pre + (zlen l + (zlen e + zlen rest))) as Ld by (unfold d; rewrite !zlen_app; lia).
  pose proof (zlen_nonneg pre). pose proof (zlen_nonneg l). 
  assert (1 <= zlen rest) by (destruct rest; [congruence|]; rewrite zlen_cons; pose proof (zlen_nonneg rest); lia).
  destruct (ends_line_head e rest HE) as (c & e' & Ee & Hc & Le). assert (1 <= zlen e) by (rewrite Ee, zlen_cons; pose proof (zlen_nonneg e'); lia).
  destruct (Z.leb_spec (zlen d - zlen pre) 0); [lia|].
  set (mx := Z.min (zlen d - zlen pre) 81).
  destruct (scan_while_ok (fun c => negb (c =? 10) && negb (c =? 13)) (Z.to_nat mx) d (zlen pre)) as (q & -> & Bq & F1 & F2); [lia|lia|]. cbn [bind].
  assert (zget d (zlen pre + zlen l) = Some c) as Gc.
  { unfold d. rewrite zget_pre by lia. rewrite <- (Z.add_0_r (zlen l)), zget_pre by lia. rewrite Ee. reflexivity. }
  assert (q = zlen pre + zlen l) as Eq.
  { destruct (Z.lt_trichotomy q (zlen pre + zlen l)) as [C|[C|C]]; [exfalso| exact C|exfalso].
    - destruct F2 as (x & Gx & Tx); [lia|]. replace q with (zlen pre + (q - zlen pre)) in Gx by lia. unfold d in Gx.
      rewrite zget_pre in Gx by lia. rewrite zget_app in Gx. destruct (Z.ltb_spec (q - zlen pre) (zlen l)); [|lia].
      assert (In x l) as Hx by (unfold zget in Gx; destruct (q - zlen pre <? 0); [discriminate|]; eapply nth_error_In; exact Gx).
      destruct (Z.eqb_spec x 10) as [->|]; [auto|]. destruct (Z.eqb_spec x 13) as [->|]; [auto|]. discriminate.
    - pose proof (F1 (zlen pre + zlen l) c ltac:(lia) Gc) as T. destruct Hc as [-> | ->]; discriminate. }
  replace (q - zlen pre) with (zlen l) by lia.
  destruct (Z.eqb_spec (zlen l) mx); [lia|]. rewrite (rdc_eq d _ c Gc). cbn [bind].
  assert (zget d (zlen pre + zlen l + 1) = zget (e' ++ rest) 0) as G1.
  { unfold d. rewrite <- Z.add_assoc, zget_pre, zget_pre by lia. rewrite Ee. reflexivity. }
  rewrite !zlen_app. destruct HE as [-> |[-> |(-> & Hr)]]; injection Ee as <- <-.
  - cbn [Z.eqb Pos.eqb]. change (zlen [10]) with 1 in *. destruct (Z.ltb_spec (zlen l + 1) (zlen d - zlen pre)); [|lia]. do 2 f_equal. lia.
  - change (13 =? 10) with false. cbv iota. change (zlen [13;10]) with 2 in *.
    destruct (Z.ltb_spec (zlen l + 1) (zlen d - zlen pre)); [|lia].
    rewrite (rdc_eq d _ 10) by (rewrite G1; reflexivity). cbn [bind Z.eqb Pos.eqb negb].
    destruct (Z.ltb_spec (zlen l + 2) (zlen d - zlen pre)); [|lia]. do 2 f_equal. lia.
  - change (13 =? 10) with false. cbv iota. change (zlen [13]) with 1 in *.
    destruct (Z.ltb_spec (zlen l + 1) (zlen d - zlen pre)); [|lia]. destruct rest as [|x rest]; [congruence|].
    rewrite (rdc_eq d _ x) by (rewrite G1; reflexivity). cbn [bind]. destruct (Z.eqb_spec x 10) as [->|]; [exfalso; eapply Hr; reflexivity|].
    cbn [negb]. do 2 f_equal. lia.
Qed.
Lemma decomp {A} (d : list A) o n : 0 <= o -> 0 <= n -> o + n <= zlen d -> skipn (Z.to_nat o) d = slice d o n ++ skipn (Z.to_nat (o + n)) d.
Proof.
  intros. unfold slice. replace (Z.to_nat (o + n)) with (Z.to_nat n + Z.to_nat o)%nat by lia. rewrite <- skipn_skipn'. symmetry. apply firstn_skipn.
Qed.
Lemma skipn_cons {A} (d : list A) o c : zget d o = Some c -> skipn (Z.to_nat o) d = c :: skipn (Z.to_nat (o + 1)) d.
Proof.
  intros G. pose proof (zget_some_inv d o c G). unfold zget in G. destruct (Z.ltb_spec o 0); [lia|].
  replace (Z.to_nat (o + 1)) with (S (Z.to_nat o)) by lia. generalize dependent (Z.to_nat o). clear. intros n. revert d.
  induction n as [|n IH]; intros [|x d] G; try discriminate; cbn in *; [congruence|]. apply IH. exact G.
Qed.
Lemma skip80_sound d o : 0 <= o <= zlen d -> exists r, skip80Line d o = Ret r /\
  forall n, r = Some n -> exists l e rest, skipn (Z.to_nat o) d = l ++ e ++ rest /\ line80 l /\ ends_line e rest /\ rest <> [] /\
    n = o + zlen l + zlen e /\ rest = skipn (Z.to_nat n) d /\ n < zlen d.
Proof.
  intros Ho. unfold skip80Line. destruct (Z.leb_spec (zlen d - o) 0); [eexists; split; [reflexivity|discriminate]|].
  set (mx := Z.min (zlen d - o) 81).
  destruct (scan_while_ok (fun c => negb (c =? 10) && negb (c =? 13)) (Z.to_nat mx) d o) as (q & -> & Bq & F1 & F2); [lia|lia|]. cbn [bind].
  destruct (Z.eqb_spec (q - o) mx); [eexists; split; [reflexivity|discriminate]|].
  destruct F2 as (c & Gc & Tc); [lia|]. replace (o + (q - o)) with q by lia. rewrite (rdc_eq d _ c Gc). cbn [bind].
  set (l := slice d o (q - o)). assert (zlen l = q - o) as Ll by (apply zlen_slice; lia).
  assert (line80 l) as HL.
  { unfold line80. split; [lia|]. assert (forall x, In x l -> negb (x =? 10) && negb (x =? 13) = true) as HT.
    { intros x Hx. apply In_nth_error in Hx. destruct Hx as (k & Hk).
      assert (zget l (Z.of_nat k) = Some x) as G. { unfold zget. destruct (Z.ltb_spec (Z.of_nat k) 0); [lia|]. rewrite Nat2Z.id. exact Hk. }
      unfold l in G. rewrite zget_slice in G by lia. destruct (Z.leb_spec 0 (Z.of_nat k)), (Z.ltb_spec (Z.of_nat k) (q - o)); cbn [andb] in G; try discriminate.
      apply (F1 (o + Z.of_nat k)); [lia|exact G]. }
    split; intros C; apply HT in C; discriminate. }
  assert (skipn (Z.to_nat o) d = l ++ skipn (Z.to_nat q) d) as E1. { rewrite (decomp d o (q - o)) by lia. do 3 f_equal. lia. }
  rewrite (skipn_cons d q c Gc) in E1.
  assert (forall k, k < zlen d -> skipn (Z.to_nat k) d <> []) as NE.
  { intros k Hk C. apply (f_equal (@length Z)) in C. rewrite skipn_length in C. unfold zlen in *. cbn [length] in C. lia. }
  destruct (Z.eqb_spec c 10) as [->|H10].
  - destruct (Z.ltb_spec (q - o + 1) (zlen d - o)); [|eexists; split; [reflexivity|discriminate]].
    eexists. split; [reflexivity|]. intros m E. injection E as <-. exists l, [10], (skipn (Z.to_nat (q + 1)) d).
    split; [exact E1|]. split; [exact HL|]. split; [left; reflexivity|]. split; [apply NE; lia|]. split; [change (zlen [10]) with 1; lia|].
    split; [reflexivity|lia].
  - assert (c = 13) as ->. { destruct (Z.eqb_spec c 10); [lia|]. destruct (Z.eqb_spec c 13); [assumption|discriminate]. }
    destruct (Z.ltb_spec (q - o + 1) (zlen d - o)).
    + destruct (rdc_ok d (q + 1)) as (c1 & -> & G1); [lia|]. cbn [bind]. rewrite (skipn_cons d _ c1 G1) in E1.
      destruct (Z.eqb_spec c1 10) as [->|N1]; cbn [negb].
      * replace (q + 1 + 1) with (q + 2) in E1 by lia.
        destruct (Z.ltb_spec (q - o + 2) (zlen d - o)); [|eexists; split; [reflexivity|discriminate]].
        eexists. split; [reflexivity|]. intros m E. injection E as <-. exists l, [13;10], (skipn (Z.to_nat (q + 2)) d).
        split; [exact E1|]. split; [exact HL|]. split; [right; left; reflexivity|]. split; [apply NE; lia|]. split; [change (zlen [13;10]) with 2; lia|].
        split; [reflexivity|lia].
      * eexists. split; [reflexivity|]. intros m E. injection E as <-. exists l, [13], (skipn (Z.to_nat (q + 1)) d).
        rewrite (skipn_cons d _ c1 G1). split; [exact E1|]. split; [exact HL|]. split.
        { right; right. split; [reflexivity|]. intros r C. congruence. }
        split; [discriminate|]. split; [change (zlen [13]) with 1; lia|]. split; [reflexivity|lia].
    + cbn [bind]. destruct (Z.ltb_spec (q - o + 2) (zlen d - o)); [lia|]. eexists; split; [reflexivity|discriminate].
Qed.
Lemma label_search h : bytes h -> exists r, kmp_search sdf_label h = Ret r /\ ((exists j, r = Some j) <-> exists j, occurs_at sdf_label h j).
Proof.
  intros HB. destruct (C11_search_partial kmp_null sdf_label h) as (k' & r & E1 & E2 & H1 & H2).
  - constructor.
  - discriminate.
  - repeat (apply Forall_cons; [lia|]); apply Forall_nil.
  - change (5 <= 2 ^ 29 - 258). lia.
  - exact HB.
  - destruct H2 as (_ & H2); [left; change (5 <= 7); lia|]. exists r. unfold kmp_search. rewrite E1. cbn [bind]. split; [exact E2|]. split.
    + intros (j & ->). exists j. apply H1. reflexivity.
    + intros (j & Hj). destruct r as [j'|]; [eauto|]. exfalso. apply (proj1 H2 eq_refl j). exact Hj.
Qed.
Lemma label_in_line l e rest j : ends_line e rest -> occurs_at sdf_label (l ++ e) j -> exists a b, l = a ++ [86;50;48;48;48] ++ b.
Proof.
  intros HE (H0 & H1 & H2). destruct (ends_line_head e rest HE) as (c & e' & Ee & Hc & Le). rewrite zlen_app in H1.
  change (zlen sdf_label) with 5 in *. pose proof (zlen_nonneg l).
  destruct (Z.le_gt_cases (j + 5) (zlen l)) as [G|G].
  - rewrite slice_app_l in H2 by lia. exists (slice l 0 j), (slice l (j + 5) (zlen l - (j + 5))).
    change [86;50;48;48;48] with sdf_label. rewrite <- H2. rewrite slice_app by lia.
    replace (slice l j) with (slice l (0 + j)) by (f_equal; lia). rewrite slice_app by lia.
    replace (j + (5 + (zlen l - (j + 5)))) with (zlen l) by lia. symmetry. apply slice_all.
  - exfalso. assert (zget (slice (l ++ e) j 5) (zlen l - j) = Some c) as G1.
    { rewrite zget_slice by lia. destruct (Z.leb_spec 0 (zlen l - j)), (Z.ltb_spec (zlen l - j) 5); try lia. cbn [andb].
      replace (j + (zlen l - j)) with (zlen l + 0) by lia. rewrite zget_pre by lia. rewrite Ee. reflexivity. }
    rewrite H2 in G1. assert (In c sdf_label) as I. { unfold zget in G1. destruct (zlen l - j <? 0); [discriminate|]. eapply nth_error_In. exact G1. }
    unfold eol in Hc. cbn in I. lia.
Qed.
Lemma occurs_app a q b e : occurs_at q ((a ++ q ++ b) ++ e) (zlen a).
Proof.
  pose proof (zlen_nonneg a). pose proof (zlen_nonneg b). pose proof (zlen_nonneg e). unfold occurs_at. rewrite <- !app_assoc, !zlen_app. split; [lia|]. split; [lia|].
  rewrite slice_app_r by lia. rewrite Z.sub_diag. rewrite slice_app_l by lia. apply slice_all.
Qed.
Lemma sdf_check_ok d : bytes d -> exists b, sdf_check d = Ret b /\ (b = true <-> is_sdf d).
Proof.
  intros HB. pose proof (zlen_nonneg d) as Hd. unfold sdf_check. destruct (Z.leb_spec (zlen d) 10) as [H|H].
  { exists false. split; [reflexivity|]. split; [discriminate|]. intros (l1 & e1 & l2 & e2 & l3 & e3 & l4 & e4 & rest & _ & _ & C & _). lia. }
  cut (exists b, (let* (this, next) := sdf_lines 4 d 0 0 in
     match next with None => Ret false | Some n => let* r := kmp_search sdf_label (slice d this (n - this)) in
              Ret (match r with Some _ => true | None => false end) end) = Ret b /\ (b = true -> is_sdf d) /\ (is_sdf d -> b = true)).
  { intros (b & E & F1 & F2). exists b. split; [exact E|tauto]. }
  assert (is_sdf d -> exists t n, sdf_lines 4 d 0 0 = Ret (t, Some n) /\ exists j, occurs_at sdf_label (slice d t (n - t)) j) as COMP.
  { intros (l1 & e1 & l2 & e2 & l3 & e3 & l4 & e4 & rest & Ed & Hne & _ & L1 & L2 & L3 & L4 & E1 & E2 & E3 & E4 & (a & b & El)).
    assert (forall (x y : list Z) c, x ++ [c] ++ y <> []) as NN by (intros [|]; discriminate).
    destruct (ends_line_head _ _ E2) as (c2 & e2' & Q2 & _). destruct (ends_line_head _ _ E3) as (c3 & e3' & Q3 & _). destruct (ends_line_head _ _ E4) as (c4 & e4' & Q4 & _).
    exists (zlen (l1 ++ e1 ++ l2 ++ e2 ++ l3 ++ e3)), (zlen ((l1 ++ e1 ++ l2 ++ e2 ++ l3 ++ e3) ++ l4 ++ e4)). split.
    - pose proof (skip80_complete [] l1 e1 (l2 ++ e2 ++ l3 ++ e3 ++ l4 ++ e4 ++ rest) L1 E1 ltac:(subst e2; destruct l2; discriminate)) as S1.
      pose proof (skip80_complete (l1 ++ e1) l2 e2 (l3 ++ e3 ++ l4 ++ e4 ++ rest) L2 E2 ltac:(subst e3; destruct l3; discriminate)) as S2.
      pose proof (skip80_complete ((l1 ++ e1) ++ l2 ++ e2) l3 e3 (l4 ++ e4 ++ rest) L3 E3 ltac:(subst e4; destruct l4; discriminate)) as S3.
      pose proof (skip80_complete (((l1 ++ e1) ++ l2 ++ e2) ++ l3 ++ e3) l4 e4 rest L4 E4 Hne) as S4.
      cbn [app] in S1. change (zlen (@nil Z)) with 0 in S1. repeat rewrite <- app_assoc in S2. repeat rewrite <- app_assoc in S3. repeat rewrite <- app_assoc in S4. rewrite <- Ed in S1, S2, S3, S4.
      cbn [sdf_lines]. rewrite S1. cbn [bind]. rewrite S2. cbn [bind]. rewrite S3. cbn [bind]. rewrite S4. cbn [bind]. repeat rewrite <- app_assoc. reflexivity.
    - exists (zlen a). rewrite Ed.
      replace (l1 ++ e1 ++ l2 ++ e2 ++ l3 ++ e3 ++ l4 ++ e4 ++ rest) with ((l1 ++ e1 ++ l2 ++ e2 ++ l3 ++ e3) ++ (l4 ++ e4) ++ rest) by (rewrite <- !app_assoc; reflexivity).
      set (pre := l1 ++ e1 ++ l2 ++ e2 ++ l3 ++ e3). rewrite slice_app_r by lia. rewrite Z.sub_diag.
      rewrite zlen_app. replace (zlen pre + zlen (l4 ++ e4) - zlen pre) with (zlen (l4 ++ e4)) by lia.
      rewrite slice_app_l by lia. rewrite slice_all. rewrite El. apply occurs_app. }
  revert COMP. cbn [sdf_lines].
  destruct (skip80_sound d 0) as (r1 & -> & S1); [lia|]. cbn [bind]. destruct r1 as [n1|].
  2: { intros COMP. exists false. split; [reflexivity|]. split; [discriminate|]. intros X. destruct (COMP X) as (t & n & C & _). discriminate. }
  destruct (S1 n1 eq_refl) as (l1 & e1 & r1 & D1 & L1 & E1 & NE1 & N1 & R1 & B1). clear S1. pose proof (zlen_nonneg l1). pose proof (zlen_nonneg e1).
  destruct (skip80_sound d n1) as (r2' & -> & S2); [lia|]. cbn [bind]. destruct r2' as [n2|].
  2: { intros COMP. exists false. split; [reflexivity|]. split; [discriminate|]. intros X. destruct (COMP X) as (t & n & C & _). discriminate. }
  destruct (S2 n2 eq_refl) as (l2 & e2 & r2 & D2 & L2 & E2 & NE2 & N2 & R2 & B2). clear S2. pose proof (zlen_nonneg l2). pose proof (zlen_nonneg e2).
  destruct (skip80_sound d n2) as (r3' & -> & S3); [lia|]. cbn [bind]. destruct r3' as [n3|].
  2: { intros COMP. exists false. split; [reflexivity|]. split; [discriminate|]. intros X. destruct (COMP X) as (t & n & C & _). discriminate. }
  destruct (S3 n3 eq_refl) as (l3 & e3 & r3 & D3 & L3 & E3 & NE3 & N3 & R3 & B3). clear S3. pose proof (zlen_nonneg l3). pose proof (zlen_nonneg e3).
  destruct (skip80_sound d n3) as (r4' & -> & S4); [lia|]. cbn [bind]. destruct r4' as [n4|].
  2: { intros COMP. exists false. split; [reflexivity|]. split; [discriminate|]. intros X. destruct (COMP X) as (t & n & C & _). discriminate. }
  destruct (S4 n4 eq_refl) as (l4 & e4 & r4 & D4 & L4 & E4 & NE4 & N4 & R4 & B4). clear S4. pose proof (zlen_nonneg l4). pose proof (zlen_nonneg e4).
  intros COMP. cbn [bind]. destruct (label_search (slice d n3 (n4 - n3)) (bytes_slice _ _ _ HB)) as (r & -> & Hr). cbn [bind]. eexists. split; [reflexivity|].
  assert (slice d n3 (n4 - n3) = l4 ++ e4) as ES.
  { unfold slice. rewrite D4. rewrite app_assoc. replace (Z.to_nat (n4 - n3)) with (length (l4 ++ e4)) by (rewrite app_length; unfold zlen in *; lia).
    rewrite firstn_app, Nat.sub_diag, firstn_O, app_nil_r. apply firstn_all. }
  rewrite ES in Hr. split.
  - destruct r as [j|]; [|discriminate]. intros _. destruct (proj1 Hr (ex_intro _ j eq_refl)) as (j' & Hj').
    destruct (label_in_line l4 e4 r4 j' E4 Hj') as (a & b & El).
    cbn [Z.to_nat skipn] in D1. rewrite <- R1 in D2. rewrite <- R2 in D3. rewrite <- R3 in D4.
    rewrite D2 in D1, E1. rewrite D3 in D1, E1, E2. rewrite D4 in D1, E1, E2, E3.
    exists l1, e1, l2, e2, l3, e3, l4, e4, r4. split; [exact D1|]. split; [exact NE4|]. split; [lia|].
    do 4 (split; [assumption|]). do 4 (split; [assumption|]). exists a, b. exact El.
  - intros X. destruct (COMP X) as (t & n & C & J). injection C as <- <-. rewrite ES in J. apply Hr in J. destruct J as (j & ->). reflexivity.
Qed.
