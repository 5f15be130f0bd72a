(** Well-formed OLE files: the chains are followed to their end (C41). *)
From Verif Require Import Base StreamSpec P_Stream M_Kmp M_Buffered BufferedSpec P_Buffered ArchiveSpec P_BufInv.
From Verif Require Import B64Spec TextSpec M_Text T_Text M_Detect DetectSpec P_Detect OleSpec M_Ole P_Ole P_Ole2 P_Ole3 P_Ole4.

Lemma zget_nthz l i : 0 <= i < zlen l -> zget l i = Some (nthz l i).
Proof.
  intros H. unfold zget, nthz, zlen in *. destruct (Z.ltb_spec i 0); [lia|]. apply nth_error_nth'. lia.
Qed.
Lemma rdc_byte d i : 0 <= i < zlen d -> rdc d i = Ret (byte_at d i).
Proof. intros H. apply rdc_eq. apply (zget_nthz d i H). Qed.
Lemma inset_false x l : inset x l = false <-> ~ In x l.
Proof.
  unfold inset. split.
  - intros H HI. assert (existsb (Z.eqb x) l = true) by (apply existsb_exists; exists x; split; [exact HI|apply Z.eqb_refl]). congruence.
  - intros H. destruct (existsb (Z.eqb x) l) eqn:E; [|reflexivity]. apply existsb_exists in E as (y & Hy & E). apply Z.eqb_eq in E. subst. contradiction.
Qed.

Section V.
Variables (big : bool) (D : list Z) (bt : list Z) (sb ms : list Z).
Notation nb := (zlen bt).
Hypothesis HB : Forall byte D.
Hypothesis HL : zlen D <= INT32_MAX.
Notation mi := (maxindex D).
Definition in_file (x : Z) : Prop := 0 <= x /\ 512 * (x + 2) <= zlen D.
Hypothesis Hbat : Forall in_file bt.
Hypothesis Hsb : Forall in_file sb.
Hypothesis Hms : Forall in_file ms.

Lemma mi_ge x : in_file x -> x <= mi.
Proof.
  intros [H1 H2]. unfold maxindex. pose proof (zlen_nonneg D). rewrite Z.quot_div_nonneg by lia. assert (x + 2 <= zlen D / 512) by (apply Z.div_le_lower_bound; lia). lia.
Qed.
Lemma chain_val bat top used inn b : zget bat (inn / 128) = Some b -> 0 <= inn -> in_file b ->
  let w := sec_word D b (inn mod 128) in
  (w = -2 \/ 0 <= w <= top /\ inset w used = false) ->
  match (if Z.quot inn 128 <? 0 then None else zget bat (Z.quot inn 128)) with
  | None => Ret (used, -4)
  | Some b =>
      let* bid := chk32 (b + 1) in
      let* m := chk32 (512 * bid) in
      let* next := chk32 (Z.rem inn 128 * 4 + m) in
      if (next <? 0) || (zlen D - 4 <? next) then Ret (used, -4)
      else
        let* next := le32 big D next in
        if (next <? -2) || (next =? -1) || (top <? next) || inset next used then Ret (used, -4)
        else if 0 <=? next then Ret (next :: used, next) else Ret (used, next)
  end = Ret (if w =? -2 then (used, -2) else (w :: used, w)) \/ top < -2 \/ inset (-2) used = true.
Proof.
  intros Hz Hi (Hb1 & Hb2) w Hw. destruct (Z.lt_ge_cases top (-2)); [tauto|]. destruct (inset (-2) used) eqn:E2; [tauto|]. left.
  rewrite Z.quot_div_nonneg, Z.rem_mod_nonneg by lia. pose proof (Z.div_pos inn 128). pose proof (Z.mod_pos_bound inn 128).
  destruct (Z.ltb_spec (inn / 128) 0); [lia|]. rewrite Hz. unfold INT32_MAX in HL.
  rewrite (chk32_ok (b + 1)) by (unfold INT32_MIN, INT32_MAX; lia). cbn [bind].
  rewrite (chk32_ok (512 * (b + 1))) by (unfold INT32_MIN, INT32_MAX; lia). cbn [bind].
  rewrite chk32_ok by (unfold INT32_MIN, INT32_MAX; lia). cbn [bind].
  destruct (Z.ltb_spec (inn mod 128 * 4 + 512 * (b + 1)) 0); [lia|]. destruct (Z.ltb_spec (zlen D - 4) (inn mod 128 * 4 + 512 * (b + 1))); [lia|]. cbn [orb].
  rewrite le32_ok by (assumption || lia). cbn [bind].
  replace (word D (inn mod 128 * 4 + 512 * (b + 1))) with w by (unfold w, sec_word; f_equal; lia).
  destruct (Z.eqb_spec w (-2)) as [E|E].
  - rewrite E, E2. change (-2 <? -2) with false. change (-2 =? -1) with false. destruct (Z.ltb_spec top (-2)); [lia|]. reflexivity.
  - destruct Hw as [Hw|[Hw Hi2]]; [contradiction|]. rewrite Hi2. destruct (Z.ltb_spec w (-2)); [lia|]. destruct (Z.eqb_spec w (-1)); [lia|].
    destruct (Z.ltb_spec top w); [lia|]. destruct (Z.leb_spec 0 w); [reflexivity|lia].
Qed.
Lemma nextBlock_val used x : 0 <= x -> x / 128 < nb -> inset (-2) used = false -> -2 <= mi ->
  (fat D bt x = -2 \/ in_file (fat D bt x) /\ inset (fat D bt x) used = false) ->
  nextBlock big D bt used x = Ret (if fat D bt x =? -2 then (used, -2) else (fat D bt x :: used, fat D bt x)).
Proof.
  intros H0 H1 H2 H3 H4. assert (0 <= x / 128 < nb) as Hr by (split; [apply Z.div_pos; lia|exact H1]).
  assert (zget bt (x / 128) = Some (nthz bt (x / 128))) as Hz by (apply zget_nthz; exact Hr).
  destruct (chain_val bt mi used x (nthz bt (x / 128))) as [E|[E|E]]; [exact Hz|exact H0|exact (zget_Forall _ _ _ _ Hbat Hz)| |exact E|lia|congruence].
  fold (fat D bt x). destruct H4 as [H4|[H4 H5]]; [left; exact H4|right]. split; [|exact H5]. pose proof (mi_ge _ H4). split; [apply H4|lia].
Qed.
Lemma nextSmallBlock_val used x : 0 <= x -> x / 128 < zlen sb -> inset (-2) used = false ->
  (minifat D sb x = -2 \/ 0 <= minifat D sb x <= 8 * zlen ms /\ inset (minifat D sb x) used = false) ->
  nextSmallBlock big D sb (8 * zlen ms) used x = Ret (if minifat D sb x =? -2 then (used, -2) else (minifat D sb x :: used, minifat D sb x)).
Proof.
  intros H0 H1 H2 H4. pose proof (zlen_nonneg ms). assert (0 <= x / 128 < zlen sb) as Hr by (split; [apply Z.div_pos; lia|exact H1]).
  assert (zget sb (x / 128) = Some (nthz sb (x / 128))) as Hz by (apply zget_nthz; exact Hr).
  destruct (chain_val sb (8 * zlen ms) used x (nthz sb (x / 128))) as [E|[E|E]]; [exact Hz|exact H0|exact (zget_Forall _ _ _ _ Hsb Hz)|exact H4|exact E|lia|congruence].
Qed.

(** ** collecting a chain *)
Lemma collect_val : -2 <= mi -> forall n used start l, chain (fat D bt) start l -> Forall (fun x => in_file x /\ x / 128 < nb) l -> NoDup l ->
  (forall x, In x (tl l) -> inset x used = false) -> inset (-2) used = false -> (length l <= n)%nat ->
  exists u, ole_collect big n D bt used start = Ret (l, u, -2) /\ (forall x, In x u -> In x used \/ In x (tl l)).
Proof.
  intros Hmi. induction n as [|n IH]; intros used start l Hc HF HN Hu H2 Hn.
  - destruct l; [|cbn in Hn; lia]. cbn in Hc. subst. exists used. split; [reflexivity|auto].
  - destruct l as [|x r].
    { cbn in Hc. subst. exists used. split; [reflexivity|auto]. }
    destruct Hc as (-> & Hc). inversion HF as [|? ? (Hx & Hx2) HF']; subst. inversion HN as [|? ? HN1 HN2]; subst. cbn [ole_collect tl length] in *.
    destruct (Z.leb_spec 0 x); [|destruct Hx; lia].
    rewrite nextBlock_val; [|lia|lia|exact H2|exact Hmi|].
    2:{ destruct r as [|y r]; [left; exact Hc|right]. destruct Hc as (Ey & Hc). rewrite Ey. inversion HF' as [|? ? (Hy & _) _]; subst. split; [exact Hy|]. apply Hu. left; reflexivity. }
    cbn [bind]. destruct r as [|y r].
    + rewrite Hc. change (-2 =? -2) with true. cbn [bind]. destruct (IH used (-2) []) as (u & E & Hin); [reflexivity|constructor|constructor|intros ? []|exact H2|cbn; lia|].
      rewrite E. cbn [bind]. exists u. split; [reflexivity|]. intros z Hz. destruct (Hin z Hz) as [?|[]]; auto.
    + assert (Hc' := Hc). destruct Hc' as (Ey & _). rewrite Ey in *. inversion HF' as [|? ? (Hy & _) _]; subst y. destruct (Z.eqb_spec (fat D bt x) (-2)); [destruct Hy; lia|]. cbn [bind].
      destruct (IH (fat D bt x :: used) (fat D bt x) (fat D bt x :: r)) as (u & E & Hin); [split; [reflexivity|apply Hc]|exact HF'|exact HN2| | |lia|].
      * intros z Hz. rewrite inset_cons. apply orb_false_iff. split; [|apply Hu; right; exact Hz]. apply Z.eqb_neq. intros ->. inversion HN2; subst. cbn in Hz. contradiction.
      * rewrite inset_cons, H2. destruct (Z.eqb_spec (-2) (fat D bt x)); [destruct Hy; lia|reflexivity].
      * rewrite E. cbn [bind]. exists u. split; [reflexivity|]. intros z Hz. destruct (Hin z Hz) as [[<-|?]|Hz2]; [right; left; reflexivity|auto|right; right; exact Hz2].
Qed.

(** ** entry streams *)
Definition nx (s : ocore) (x : Z) : Z := if oc_bs s =? 64 then minifat D sb x else fat D bt x.
Definition bk (s : ocore) (x : Z) : list Z := if oc_bs s =? 64 then minisector D ms x else sector D x.
Definition okb (s : ocore) (x : Z) : Prop :=
  if oc_bs s =? 64 then 0 <= x /\ x / 128 < zlen sb /\ x / 8 < zlen ms else in_file x /\ x / 128 < nb.
Definition usedX (s : ocore) : list Z := if oc_bs s =? 64 then oc_usedS s else oc_used s.
Definition fixed (s : ocore) : Prop := oc_bat s = bt /\ oc_sbat s = sb /\ oc_sbatb s = ms.
Hypothesis Hmi : -2 <= mi.

Lemma bk_len s x : oc_bs s = 64 \/ oc_bs s = 512 -> okb s x -> zlen (bk s x) = oc_bs s.
Proof.
  unfold okb, bk. intros [E|E]; rewrite E; [change (64 =? 64) with true|change (512 =? 64) with false]; cbv iota.
  - intros (H1 & H2 & H3). unfold minisector. assert (0 <= x / 8) by (apply Z.div_pos; lia). pose proof (Z.mod_pos_bound x 8).
    assert (in_file (nthz ms (x / 8))) as [Q1 Q2] by (eapply zget_Forall; [exact Hms|apply zget_nthz; lia]). apply zlen_slice; lia.
  - intros ((H1 & H2) & H3). unfold sector. apply zlen_slice; lia.
Qed.
Lemma where_val s : oc_data s = D -> fixed s -> oc_bs s = 64 \/ oc_bs s = 512 -> okb s (oc_db s) ->
  exists d, where_is s = Ret (Some d) /\ 0 <= d /\ d + oc_bs s <= zlen D /\ slice D d (oc_bs s) = bk s (oc_db s).
Proof.
  intros Ed (F1 & F2 & F3) Hbs. unfold where_is, okb, bk. unfold INT32_MAX in HL.
  destruct Hbs as [E|E]; rewrite E; [change (64 =? 64) with true|change (512 =? 64) with false]; cbv iota.
  - intros (H1 & H2 & H3). unfold getCurrentSmallBlock, minisector. rewrite Ed, F3. rewrite Z.quot_div_nonneg, Z.rem_mod_nonneg by lia.
    assert (0 <= oc_db s / 8) by (apply Z.div_pos; lia). pose proof (Z.mod_pos_bound (oc_db s) 8).
    destruct (Z.ltb_spec (oc_db s / 8) 0); [lia|].
    assert (zget ms (oc_db s / 8) = Some (nthz ms (oc_db s / 8))) as Hz by (apply zget_nthz; lia). rewrite Hz.
    assert (in_file (nthz ms (oc_db s / 8))) as [Q1 Q2] by exact (zget_Forall _ _ _ _ Hms Hz). set (b := nthz ms (oc_db s / 8)) in *.
    rewrite (chk32_ok (1 + b)) by (unfold INT32_MIN, INT32_MAX; lia). cbn [bind].
    rewrite (chk32_ok (512 * (1 + b))) by (unfold INT32_MIN, INT32_MAX; lia). cbn [bind].
    rewrite chk32_ok by (unfold INT32_MIN, INT32_MAX; lia). cbn [bind].
    destruct (Z.ltb_spec (zlen D - 64) (512 * (1 + b) + oc_db s mod 8 * 64)); [lia|]. eexists. split; [reflexivity|]. split; [lia|]. split; [lia|]. f_equal; lia.
  - intros ((H1 & H2) & H3). rewrite chk32_ok by (unfold INT32_MIN, INT32_MAX; lia). cbn [bind].
    rewrite chk32_ok by (unfold INT32_MIN, INT32_MAX; lia). cbn [bind]. eexists. split; [reflexivity|]. split; [lia|]. split; [lia|]. unfold sector. f_equal; lia.
Qed.
Lemma advance_val s : oc_data s = D -> fixed s -> oc_bs s = 64 \/ oc_bs s = 512 -> okb s (oc_db s) -> inset (-2) (usedX s) = false ->
  (nx s (oc_db s) = -2 \/ okb s (nx s (oc_db s)) /\ inset (nx s (oc_db s)) (usedX s) = false) ->
  exists us u x, advance big s = Ret (us, u, x) /\ x = nx s (oc_db s) /\
    (x = -2 /\ us = oc_usedS s /\ u = oc_used s \/
     x <> -2 /\ (if oc_bs s =? 64 then us = x :: oc_usedS s /\ u = oc_used s else us = oc_usedS s /\ u = x :: oc_used s)).
Proof.
  intros Ed (F1 & F2 & F3) Hbs. unfold advance, okb, nx, usedX. rewrite Ed, F1, F2, F3.
  destruct Hbs as [E|E]; rewrite E; [change (64 =? 64) with true|change (512 =? 64) with false]; cbv iota.
  - intros (H1 & H2 & H3) H4 H5. rewrite nextSmallBlock_val; [|assumption..|].
    2:{ destruct H5 as [H5|[(Q1 & Q2 & Q3) H5]]; [left; exact H5|right]. split; [|exact H5]. split; [exact Q1|].
        pose proof (Z.div_mod (minifat D sb (oc_db s)) 8). pose proof (Z.mod_pos_bound (minifat D sb (oc_db s)) 8). lia. }
    cbn [bind]. destruct (Z.eqb_spec (minifat D sb (oc_db s)) (-2)) as [Ey|Ey]; cbn [bind]; do 3 eexists; (split; [reflexivity|]); (split; [congruence|]); [left|right]; auto.
  - intros ((H1 & H2) & H3) H4 H5. rewrite nextBlock_val; [|assumption..|].
    2:{ destruct H5 as [H5|[(Q1 & Q2) H5]]; [left; exact H5|right]. tauto. }
    cbn [bind]. destruct (Z.eqb_spec (fat D bt (oc_db s)) (-2)) as [Ey|Ey]; cbn [bind]; do 3 eexists; (split; [reflexivity|]); (split; [congruence|]); [left|right]; auto.
Qed.

Variable content : list Z.
(** the state of an entry stream that has delivered [c] bytes; U and US: blocks it may have marked *)
Record vSR (U US : Z -> Prop) (s : ocore) (c : Z) : Prop := {
  v_dyn : odyn D s; v_fix : fixed s; v_size : oc_msize s = zlen content; v_c : c = oc_done s;
  v_m2 : inset (-2) (oc_used s) = false /\ inset (-2) (oc_usedS s) = false;
  v_U : (forall x, In x (oc_used s) -> U x) /\ (forall x, In x (oc_usedS s) -> US x);
  v_run : c < zlen content -> exists r, chain (nx s) (oc_db s) r /\ r <> [] /\ Forall (okb s) r /\ NoDup r /\
    (forall x, In x (tl r) -> inset x (usedX s) = false) /\ (forall x, In x r -> if oc_bs s =? 64 then US x else U x) /\
    0 <= c - oc_off s /\
    zlen r = blocks (zlen content - (c - oc_off s)) (oc_bs s) /\
    slice content (c - oc_off s) (zlen content - (c - oc_off s)) = slice (concat (map (bk s) r)) 0 (zlen content - (c - oc_off s)) }.
Lemma blocks_1 t b : 0 < b -> 0 < t -> blocks t b = 1 <-> t <= b.
Proof.
  intros Hb Ht. unfold blocks. split; intros H.
  - pose proof (Z.mul_succ_div_gt (t + b - 1) b Hb). rewrite H in *. lia.
  - symmetry. apply Z.div_unique with (r := t - 1); lia.
Qed.
Lemma blocks_step t b : 0 < b -> blocks (t - b) b = blocks t b - 1.
Proof. intros Hb. unfold blocks. replace (t + b - 1) with ((t - b + b - 1) + 1 * b) by lia. rewrite Z.div_add by lia. lia. Qed.

Lemma vfill U US s c space : vSR U US s c -> c < zlen content -> 1 <= space ->
  exists s' n w, ole_fill big s space = Ret (s', n, w, false) /\ zlen w <= space /\ 0 < n /\ w = slice content c n /\ c + n <= zlen content /\ vSR U US s' (c + n).
Proof.
  intros [Hdyn Hfix Hsz Hc Hm2 HU Hrun] Hlt Hsp. destruct (Hrun Hlt) as (r & R1 & R2 & R3 & R4 & R5 & R6 & R7 & R8 & R9). clear Hrun.
  assert (Hd' := Hdyn). destruct Hd' as [HS Hbs Hoff Hdone Hdb].
  rewrite (fill_eq big D HL s space Hdyn) by lia. cbv zeta.
  assert (full s = Z.min (oc_bs s - oc_off s) (zlen content - c)) as Hfull by (unfold full; rewrite Hsz, Hc; reflexivity).
  set (n := Z.min space (full s)). assert (1 <= n <= full s /\ n <= space) as Hn by (unfold n; lia).
  destruct r as [|x r]; [congruence|]. destruct R1 as (Ex & R1). inversion R3 as [|? ? Rx R3']; subst x.
  destruct (where_val s (os_data D s HS) Hfix Hbs Rx) as (d & -> & Hd0 & Hd1 & Hdb2). cbn [bind].
  assert (slice D (d + oc_off s) n = slice content c n) as Hw.
  { assert (slice D (d + oc_off s) n = slice (bk s (oc_db s)) (oc_off s) n) as -> by (rewrite <- Hdb2, slice_slice by lia; reflexivity).
    set (T := zlen content - (c - oc_off s)) in *.
    transitivity (slice (slice content (c - oc_off s) T) (oc_off s) n); [|rewrite slice_slice by lia; f_equal; lia].
    rewrite R9. rewrite slice_slice by lia. cbn [map concat]. rewrite Z.add_0_l. rewrite slice_app_l; [reflexivity|lia|]. rewrite bk_len by assumption. lia. }
  rewrite Hw. assert (zlen (slice content c n) = n) as Hzn by (apply zlen_slice; lia).
  inversion R4 as [|? ? R4a R4b]; subst.
  destruct (Z.eqb_spec (oc_off s + n) (oc_bs s)) as [En|En].
  - destruct (advance_val s (os_data D s HS) Hfix Hbs Rx) as (us & u & x & -> & Hx & Hx2).
    { unfold usedX. destruct (oc_bs s =? 64); tauto. }
    { destruct r as [|y r]; [left; exact R1|right]. destruct R1 as (Ey & R1). rewrite Ey. inversion R3' as [|? ? Ry _]; subst. split; [exact Ry|]. apply R5. left; reflexivity. }
    cbn [bind].
    assert ((x <? 0) && (negb (x =? -2) || negb (oc_done s + n =? oc_msize s)) = false) as ->.
    { destruct r as [|y r].
      - rewrite Hx, R1. change (-2 <? 0) with true. change (-2 =? -2) with true. cbn [andb negb orb]. apply negb_false_iff, Z.eqb_eq.
        change (zlen [oc_db s]) with 1 in R8. symmetry in R8. apply blocks_1 in R8; lia.
      - apply andb_false_iff. left. apply Z.ltb_ge. destruct R1 as (Ey & R1). rewrite Hx, Ey. inversion R3' as [|? ? Ry _]; subst. unfold okb, in_file in Ry.
        destruct (oc_bs s =? 64); lia. }
    do 3 eexists. split; [reflexivity|]. split; [lia|]. split; [lia|]. split; [reflexivity|]. split; [lia|].
    assert (same_stat s (odo s us u x (oc_done s + n) 0)) as Hsame by (unfold same_stat; cbn; tauto).
    assert (r = [] -> oc_done s + n = zlen content) as Hlast.
    { intros ->. change (zlen [oc_db s]) with 1 in R8. symmetry in R8. apply blocks_1 in R8; lia. }
    assert (r <> [] -> okb s x /\ In x r) as Hmore.
    { intros Hr. destruct r as [|y r]; [congruence|]. destruct R1 as (Ey & R1). rewrite Hx, Ey. inversion R3' as [|? ? Ry _]; subst. split; [exact Ry|left; reflexivity]. }
    split; cbn [odo oc_msize oc_done oc_used oc_usedS oc_db oc_off oc_bs].
    + split; cbn [odo oc_bs oc_off oc_done oc_msize oc_db]; try assumption; try lia.
      * eapply same_ostat; [exact Hsame|exact HS].
      * intros Hlt2. destruct r as [|y r]; [exfalso; specialize (Hlast eq_refl); lia|]. destruct Hmore as (Hok & _); [discriminate|].
        unfold okb in Hok. split; [destruct (oc_bs s =? 64); [lia|destruct Hok as ((? & _) & _); assumption]|].
        intros E5. rewrite E5 in Hok. change (512 =? 64) with false in Hok. cbv iota in Hok. apply mi_ge. apply Hok.
    + exact Hfix.
    + exact Hsz.
    + reflexivity.
    + destruct Hx2 as [(_ & -> & ->)|(Hne & Hx2)]; [exact Hm2|]. destruct (oc_bs s =? 64); destruct Hx2 as (-> & ->); rewrite inset_cons;
        (destruct (Z.eqb_spec (-2) x); [congruence|]); exact Hm2.
    + destruct Hx2 as [(_ & -> & ->)|(Hne & Hx2)]; [exact HU|].
      assert (In x r) as Hin.
      { destruct r as [|y r]; [rewrite R1 in Hx; congruence|apply Hmore; discriminate]. }
      specialize (R6 x (or_intror Hin)). destruct HU as [HU1 HU2].
      destruct (oc_bs s =? 64); destruct Hx2 as (-> & ->); (split; [|]); intros z Hz; try (apply HU1; exact Hz); try (apply HU2; exact Hz);
        destruct Hz as [<-|Hz]; auto.
    + intros Hlt2. destruct r as [|y r]; [exfalso; specialize (Hlast eq_refl); lia|]. exists (y :: r).
      assert (R1' := R1). destruct R1' as (Ey & R1'). 
      assert (x <> -2) as Hne.
      { destruct Hmore as (Hok & _); [discriminate|]. unfold okb, in_file in Hok. intros E9. rewrite E9 in Hok. destruct (oc_bs s =? 64); lia. }
      destruct Hx2 as [(? & _)|(_ & Hx2)]; [congruence|].
      split; [rewrite Hx; exact R1|]. split; [discriminate|]. split; [exact R3'|]. split; [exact R4b|]. split.
      { intros z Hz. cbn [tl] in Hz. unfold usedX. cbn [odo oc_bs oc_used oc_usedS].
        assert (z <> x) as Hzx by (intros Ezx; apply NoDup_cons_iff in R4b as (R4c & _); apply R4c; rewrite <- Ey, <- Hx, <- Ezx; exact Hz).
        specialize (R5 z (or_intror Hz)). unfold usedX in R5. destruct (oc_bs s =? 64); destruct Hx2 as (-> & ->); rewrite inset_cons;
          (destruct (Z.eqb_spec z x); [congruence|exact R5]). }
      split; [intros z Hz; apply R6; right; exact Hz|]. split; [lia|].
      replace (zlen content - (oc_done s + n - 0)) with (zlen content - (oc_done s - oc_off s) - oc_bs s) by lia.
      split.
      { rewrite blocks_step by lia. rewrite <- R8. rewrite (zlen_cons (oc_db s)). lia. }
      set (T := zlen content - (oc_done s - oc_off s)) in *.
      transitivity (slice (slice content (oc_done s - oc_off s) T) (oc_bs s) (T - oc_bs s)); [rewrite slice_slice by lia; f_equal; lia|].
      rewrite R9, slice_slice by lia. rewrite Z.add_0_l. cbn [map concat]. rewrite <- (bk_len s (oc_db s) Hbs Rx) at 1. rewrite slice_app_r by lia. f_equal. lia.
  - do 3 eexists. split; [reflexivity|]. split; [lia|]. split; [lia|]. split; [reflexivity|]. split; [lia|].
    split; cbn [odo oc_msize oc_done oc_used oc_usedS oc_db oc_off oc_bs]; try assumption.
    + split; cbn [odo oc_bs oc_off oc_done oc_msize oc_db]; try assumption; try lia.
      eapply same_ostat; [|exact HS]. unfold same_stat; cbn; tauto.
    + reflexivity.
    + intros Hlt2. exists (oc_db s :: r). split; [split; [reflexivity|exact R1]|]. split; [discriminate|]. split; [constructor; assumption|]. split; [constructor; assumption|].
      split; [exact R5|]. split; [exact R6|]. replace (oc_done s + n - (oc_off s + n)) with (oc_done s - oc_off s) by lia. split; [lia|]. split; assumption.
Qed.
Lemma vole_SrcOK U US : SrcOK (ole_src big) content False (vSR U US) (fun _ => True).
Proof.
  intros s c space Hs Hsp. cbn [ole_src fill mu]. assert (Hs' := Hs). destruct Hs' as [Hdyn Hfix Hsz Hc Hm2 HU Hrun].
  destruct Hdyn as [HS Hbs Hoff Hdone Hdb].
  destruct (Z.eq_dec (oc_done s) (oc_msize s)) as [E|E].
  - exists s, (-1), [], false. split; [unfold ole_fill; rewrite E, Z.eqb_refl; reflexivity|]. split; [change (zlen (@nil Z)) with 0; lia|].
    right. right. left. split; [reflexivity|]. split; [lia|]. split; [lia|exact I].
  - destruct (vfill U US s c space Hs) as (s' & n & w & -> & H1 & H2 & H3 & H4 & H5); [lia|lia|].
    exists s', n, w, false. split; [reflexivity|]. split; [exact H1|]. left. do 4 (split; [assumption || reflexivity|]). split; [exact H5|lia].
Qed.
(** whatever happens, only those blocks get marked *)
Definition vJ (U US : Z -> Prop) (tb ti : Z) (s : ocore) : Prop := (exists c, vSR U US s c) /\ oc_tb s = tb /\ oc_ti s = ti.
Lemma vJ_fill U US tb ti s space s' n d e : vJ U US tb ti s -> fill (ole_src big) s space = Ret (s', n, d, e) -> vJ U US tb ti s'.
Proof.
  intros ((c & Hs) & Ht1 & Ht2) H. cbn [ole_src fill] in H.
  assert (oc_tb s' = tb /\ oc_ti s' = ti) as (A1 & A2).
  { destruct (oJ_fill big D s s space s' n d e (oJ_refl D s)) as (_ & J2 & J3 & _); [exact H|]. split; congruence. }
  split; [|split; assumption]. assert (Hs' := Hs). destruct Hs' as [Hdyn Hfix Hsz Hc Hm2 HU Hrun].
  destruct Hdyn as [HS Hbs Hoff Hdone Hdb].
  destruct (Z.eq_dec (oc_done s) (oc_msize s)) as [E|E].
  { unfold ole_fill in H. rewrite E, Z.eqb_refl in H. injection H as <- _ _ _. exists c; exact Hs. }
  destruct (Z.lt_ge_cases space 1) as [L|L].
  - unfold ole_fill in H. destruct (Z.eqb_spec (oc_done s) (oc_msize s)); [contradiction|]. cbv zeta in H.
    match type of H with context [if ?a <? space then _ else space] => assert ((if a <? space then a else space) = space) as En by (destruct (Z.ltb_spec (oc_msize s - oc_done s) (oc_bs s - oc_off s)); zdest; lia) end.
    rewrite En in H. apply bind_ret in H as (r & _ & H). destruct r as [r|]; [|injection H as <- _ _ _; exists c; exact Hs].
    match type of H with (if ?c then _ else _) = _ => destruct c end; [injection H as <- _ _ _; exists c; exact Hs|].
    match type of H with (if ?c then _ else _) = _ => destruct c eqn:Eq end; [|discriminate].
    rewrite !andb_true_iff, !Z.leb_le in Eq. assert (space = 0) as -> by lia. destruct (Z.eqb_spec (oc_off s + 0) (oc_bs s)); [lia|].
    injection H as <- _ _ _. rewrite !Z.add_0_r. exists c. destruct s. exact Hs.
  - destruct (vfill U US s c space Hs) as (s2 & n2 & w & E2 & _ & _ & _ & _ & H5); [lia|lia|]. rewrite E2 in H. injection H as <- _ _ _. exists (c + n2). exact H5.
Qed.
End V.
