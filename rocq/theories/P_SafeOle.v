(** Iterating over an OLE file ends (C26), whatever the bytes are. *)
From Verif Require Import Base StreamSpec P_Stream M_Kmp M_Buffered BufferedSpec P_Buffered ArchiveSpec P_BufInv M_Text M_Detect M_Ole P_Ole P_Ole2 P_Ole3 P_OleV3.
From Verif Require Import P_Tame P_TameBuf P_SafeZip.

(** everything that is not an endless loop *)
Definition stops {A} (x : out A) : Prop := x <> Hang.
Lemma stops_bind {A B} (x : out A) (f : A -> out B) : stops x -> (forall a, x = Ret a -> stops (f a)) -> stops (bind x f).
Proof. destruct x; cbn; intros H1 H2; [apply H2; reflexivity|discriminate|discriminate|exfalso; apply H1; reflexivity]. Qed.
Lemma stops_ret {A} (a : A) : stops (Ret a). Proof. discriminate. Qed.
Lemma stops_safe {A} (x : out A) (Q : A -> Prop) : stops x -> (forall a, x = Ret a -> Q a) -> safe True x Q.
Proof. destruct x; cbn; intros H1 H2; [apply H2; reflexivity|exact I|exact I|apply H1; reflexivity]. Qed.
Lemma safe_stops {A} (x : out A) (Q : A -> Prop) : safe True x Q -> stops x /\ forall a, x = Ret a -> Q a.
Proof. destruct x; cbn; intros H; split; intros; try discriminate; [congruence|contradiction]. Qed.
Lemma stops_chk z : stops (chk32 z). Proof. unfold chk32. destruct (i32 z); discriminate. Qed.
Lemma stops_rdc d o : stops (rdc d o). Proof. unfold rdc. destruct (zget d o); discriminate. Qed.
Lemma stops_le32 big d o : stops (le32 big d o). Proof. unfold le32. destruct (_ && _); discriminate. Qed.
Ltac st := repeat first
  [ discriminate | apply stops_chk | apply stops_rdc | apply stops_le32 | assumption
  | match goal with |- stops (bind _ _) => apply stops_bind; [|intros ? ?]
                  | |- stops (let '(_, _) := ?x in _) => destruct x
                  | |- stops (if ?c then _ else _) => destruct c
                  | |- stops (match ?x with Some _ => _ | None => _ end) => destruct x end ].
Section Ole.
Variable big : bool.
Lemma stops_next d bat u i : stops (nextBlock big d bat u i). Proof. unfold nextBlock. st. Qed.
Lemma stops_nextS d bat m u i : stops (nextSmallBlock big d bat m u i). Proof. unfold nextSmallBlock. st. Qed.
Lemma stops_fill s sp : stops (ole_fill big s sp).
Proof. unfold ole_fill, getCurrentSmallBlock. cbv zeta. st; first [apply stops_next|apply stops_nextS|st]. Qed.
Lemma stops_info s inf : stops (readEntryInfo big s inf).
Proof.
  assert (forall n d o, stops (ole_name n d o)) as Hn by (induction n as [|n IH]; intros d o; cbn [ole_name]; st; apply IH).
  unfold readEntryInfo. cbv zeta. st; apply Hn.
Qed.
Lemma info_val s inf s' inf' : readEntryInfo big s inf = Ret (s', inf') -> oc_data s' = oc_data s /\ oc_used s' = oc_used s /\ oc_tb s' = oc_tb s /\ oc_ti s' = oc_ti s /\ (0 <= oc_db s' -> 0 < oc_ss s').
Proof.
  unfold readEntryInfo. cbv zeta. intros H. do 3 (apply bind_ret in H as (? & _ & H)). destruct (negb _); [injection H as <- _; cbn; repeat (split; [reflexivity|]); lia|].
  do 2 (apply bind_ret in H as (? & _ & H)). destruct x3 as (nm & bd). do 2 (apply bind_ret in H as (? & _ & H)). injection H as <- _. cbn [oc_data oc_used oc_tb oc_ti oc_db oc_ss].
  do 4 (split; [reflexivity|]). destruct (Z.leb_spec x4 0); [|lia]. rewrite orb_true_r. lia.
Qed.
Lemma next_val d bat used i u x : nextBlock big d bat used i = Ret (u, x) -> 0 <= x -> u = x :: used /\ inset x used = false /\ x <= maxindex d.
Proof.
  unfold nextBlock. destruct (if _ <? 0 then _ else _); [|intros H; injection H as <- <-; lia].
  intros H Hx. do 3 (apply bind_ret in H as (? & _ & H)). destruct (_ || _); [injection H as <- <-; lia|].
  apply bind_ret in H as (y & _ & H).
  destruct (Z.ltb_spec y (-2)); cbn [orb] in H; [injection H as <- <-; lia|]. destruct (y =? -1); cbn [orb] in H; [injection H as <- <-; lia|].
  destruct (Z.ltb_spec (maxindex d) y); cbn [orb] in H; [injection H as <- <-; lia|]. destruct (inset y used) eqn:E; [injection H as <- <-; lia|].
  destruct (Z.leb_spec 0 y); injection H as <- <-; [|lia]. split; [reflexivity|]. split; [exact E|assumption].
Qed.
Lemma entries_safe : forall fuel s inf, 0 <= oc_tb s -> 0 <= oc_ti s <= 3 -> (meas (oc_data s) s < fuel)%nat ->
  safe True (ole_entries big fuel s inf) (fun '(s', inf', b) => b = true ->
    oc_data s' = oc_data s /\ 0 <= oc_tb s' /\ 0 <= oc_ti s' <= 3 /\ (meas (oc_data s) s' < meas (oc_data s) s)%nat /\ 0 < oc_ss s').
Proof.
  induction fuel as [|f IH]; intros s inf Htb Hti Hm; [lia|]. cbn [ole_entries]. cbv zeta.
  match goal with |- safe _ (let* s1 := ?e in _) _ => assert (safe True e (fun s1 => oc_data s1 = oc_data s /\ ((oc_ti s + 1 =? 4) && (oc_tb s1 <? 0) = false ->
     0 <= oc_tb s1 /\ 0 <= oc_ti s1 <= 3 /\ (meas (oc_data s) s1 < meas (oc_data s) s)%nat))) as H1 end.
  { apply stops_safe; [st; apply stops_next|]. intros s1 E. destruct (Z.eqb_spec (oc_ti s + 1) 4) as [E4|E4].
    - apply bind_ret in E as ((u & tb) & En & E). injection E as <-. cbn [oc_data oc_tb oc_ti]. split; [reflexivity|]. cbn [andb]. destruct (Z.ltb_spec tb 0); [discriminate|]. intros _.
      destruct (next_val _ _ _ _ _ _ En ltac:(lia)) as (-> & Hi & Hx). split; [lia|]. split; [lia|]. unfold meas. cbn [oc_used oc_ti].
      pose proof (unused_add (maxindex (oc_data s) + 1) tb (oc_used s) ltac:(lia) Hi). replace (oc_ti s) with 3 by lia. change (Z.to_nat (3 - 3)) with 0%nat. change (Z.to_nat (3 - 0)) with 3%nat. lia.
    - injection E as <-. cbn [oc_data oc_tb oc_ti]. split; [reflexivity|]. intros _. split; [lia|]. split; [lia|]. unfold meas. cbn [oc_used oc_ti]. lia. }
  eapply safe_bind; [exact H1|]. intros s1 (D1 & T1). destruct (_ && _) eqn:Ec; [cbn [safe]; discriminate|]. destruct (T1 eq_refl) as (T2 & T3 & T4). clear T1.
  eapply safe_bind; [apply (stops_safe _ (fun '(s2, inf2) => oc_data s2 = oc_data s1 /\ oc_used s2 = oc_used s1 /\ oc_tb s2 = oc_tb s1 /\ oc_ti s2 = oc_ti s1 /\ (0 <= oc_db s2 -> 0 < oc_ss s2)) (stops_info s1 inf))|].
  { intros (s2 & inf2) E. apply info_val with (1 := E). }
  intros (s2 & inf2) (Q1 & Q2 & Q3 & Q4 & Q5). assert (meas (oc_data s) s2 = meas (oc_data s) s1) as Em by (unfold meas; rewrite Q2, Q4; reflexivity).
  destruct (Z.ltb_spec (oc_db s2) 0).
  - eapply safe_impl; [apply IH; rewrite ?Q1, ?D1, ?Q3, ?Q4, ?Em; try assumption; lia|tauto|]. intros ((s3 & i3) & b) H3 Hb. destruct (H3 Hb) as (V1 & V2 & V3 & V4 & V5). rewrite Q1, D1 in *.
    split; [exact V1|]. split; [exact V2|]. split; [exact V3|]. split; [lia|exact V5].
  - cbn [safe]. intros _. rewrite Q3, Q4. split; [congruence|]. split; [exact T2|]. split; [exact T3|]. split; [lia|apply Q5; lia].
Qed.
(** the entry stream *)
Definition eJ (s0 : ocore) (bad : bool) (s : ocore) (c : Z) (m : nat) : Prop :=
  oJ (oc_data s0) s0 s /\ (oc_bs s = 64 \/ oc_bs s = 512) /\ 0 <= oc_off s < oc_bs s /\ 0 <= oc_done s <= oc_msize s /\ oc_msize s = oc_msize s0 /\ c = oc_done s /\ m = 0%nat.
Lemma ole_tame s0 : Forall (fun c => 0 <= c < 256) (oc_data s0) -> TameSrc (ole_src big) None (oc_msize s0) True (eJ s0) (oJ (oc_data s0) s0).
Proof.
  intros HB. split.
  - intros b s c m H. apply H.
  - intros s c m (_ & _ & _ & _ & _ & _ & ->). lia.
  - intros bad s c m space (HJ & Hbs & Hoff & Hdone & Hms & -> & ->) Hsp. cbn [data_at in_content].
    apply stops_safe; [apply stops_fill|]. intros (((s' & n) & d) & e) E. pose proof (oJ_fill big (oc_data s0) s0 s space s' n d e HJ E) as HJ'.
    cbn [ole_src fill] in E. unfold ole_fill in E. destruct (Z.eqb_spec (oc_done s) (oc_msize s)) as [Ed|Ed].
    { injection E as <- <- <- <-. change (zlen (@nil Z)) with 0. split; [lia|]. split; [exact HJ'|]. lia. }
    cbv zeta in E. set (av := if oc_msize s - oc_done s <? oc_bs s - oc_off s then oc_msize s - oc_done s else oc_bs s - oc_off s) in *.
    set (nn := if av <? space then av else space) in *. assert (1 <= nn <= space /\ nn <= oc_bs s - oc_off s /\ oc_done s + nn <= oc_msize s) as Hnn.
    { unfold nn, av. destruct (Z.ltb_spec (oc_msize s - oc_done s) (oc_bs s - oc_off s)); [destruct (Z.ltb_spec (oc_msize s - oc_done s) space)|destruct (Z.ltb_spec (oc_bs s - oc_off s) space)]; lia. }
    clearbody nn. clear av. apply bind_ret in E as (r & _ & E). destruct r as [r|]; [|injection E as <- <- <- <-; change (zlen (@nil Z)) with 0; split; [lia|]; split; [exact HJ'|]; lia].
    destruct (_ || _); [injection E as <- <- <- <-; change (zlen (@nil Z)) with 0; split; [lia|]; split; [exact HJ'|]; lia|].
    destruct (_ && _) eqn:Ec; [|discriminate]. rewrite !andb_true_iff, !Z.leb_le in Ec.
    set (w := slice (oc_data s) (r + oc_off s) nn) in *. assert (zlen w = nn) as Hw by (apply zlen_slice; lia).
    assert (Forall (fun c => 0 <= c < 256) w) as Hwb. { apply Forall_slice. destruct HJ as ((Eq & _) & _). rewrite Eq. exact HB. }
    destruct (Z.eqb_spec (oc_off s + nn) (oc_bs s)) as [Eo|Eo].
    + apply bind_ret in E as (((us & u) & db) & _ & E).
      destruct (_ && _); injection E as <- <- <- <-; (split; [lia|]; split; [exact HJ'|]; split; [|lia]); [lia|].
      intros _. split; [exact Hw|]. split; [exact Hwb|]. split; [exact I|]. split; [exact I|]. split; [lia|]. exists 0%nat. split; [lia|].
      split; [exact HJ'|]. cbn [oc_bs oc_off oc_done oc_msize]. split; [exact Hbs|]. split; [lia|]. split; [lia|]. split; [exact Hms|]. split; reflexivity.
    + injection E as <- <- <- <-. split; [lia|]. split; [exact HJ'|]. split; [|lia].
      intros _. split; [exact Hw|]. split; [exact Hwb|]. split; [exact I|]. split; [exact I|]. split; [lia|]. exists 0%nat. split; [lia|].
      split; [exact HJ'|]. cbn [oc_bs oc_off oc_done oc_msize]. split; [exact Hbs|]. split; [lia|]. split; [lia|]. split; [exact Hms|]. split; reflexivity.
Qed.
(** the iteration *)
Definition olI (B : Z) (a : ole) (b : Z) : Prop :=
  0 <= b /\ small_buf (bs_buf (ol_str a)) /\ zlen (oc_data (bs_src (ol_str a))) <= B /\
  (0 <= oc_tb (bs_src (ol_str a)) -> Forall (fun c => 0 <= c < 256) (oc_data (bs_src (ol_str a))) /\ 0 <= oc_ti (bs_src (ol_str a)) <= 3 /\ b = Z.of_nat (meas (oc_data (bs_src (ol_str a))) (bs_src (ol_str a)))).
Lemma meas_bound d s : 0 <= oc_ti s -> Z.of_nat (meas d s) <= zlen d + 3.
Proof.
  intros H. unfold meas. pose proof (unused_max (maxindex d + 1) (oc_used s)). unfold maxindex in *. pose proof (zlen_nonneg d). rewrite Z.quot_div_nonneg in * by lia.
  assert (512 * (zlen d / 512) <= zlen d) by (apply Z.mul_div_le; lia). lia.
Qed.
Lemma next_safe B fuel a b : B + 3 < Z.of_nat fuel -> olI B a b -> safe True (pv_next (ole_provider big fuel) a) (fun '(st1, r) => match r with None => True | Some i =>
     forall h, Forall (any_call INT32_MAX) h -> safe True (pv_entry (ole_provider big fuel) st1 h) (fun '(st2, _) => exists b', olI B st2 b' /\ b' < b) end).
Proof.
  intros Hf (Hb0 & Hsm & HB & HI). cbn [ole_provider pv_next pv_entry]. unfold ole_next. cbv zeta. set (s := bs_src (ol_str a)) in *.
  destruct (Z.ltb_spec (oc_tb s) 0) as [L|L]; [exact I|]. destruct (HI L) as (HBy & Hti & ->). clear HI.
  eapply safe_bind; [apply (entries_safe fuel s (ol_inf a) L Hti); pose proof (meas_bound (oc_data s) s ltac:(lia)); lia|].
  intros ((s1 & inf) & b) H. destruct b; [|exact I]. destruct (H eq_refl) as (D1 & T1 & T2 & M1 & S1). clear H. cbn [safe]. intros h Hh.
  unfold ole_entry. cbn [ol_str ol_inf ol_st]. set (bsz := if oc_ss s1 <? 4096 then 64 else 512). assert (bsz = 64 \/ bsz = 512) as Hbs by (unfold bsz; destruct (_ <? _); auto).
  set (s2 := mkO (oc_data s1) (oc_bat s1) (oc_sbat s1) (oc_sbatb s1) (oc_usedS s1) (oc_used s1) (oc_tb s1) (oc_ti s1) (oc_db s1) (oc_ss s1) 0 0 bsz (oc_ss s1)).
  assert (Forall (fun c => 0 <= c < 256) (oc_data s2)) as HB2 by (unfold s2; cbn [oc_data]; rewrite D1; exact HBy).
  pose proof (ole_tame s2 HB2) as HS. set (x0 := mkBS _ _ s2 _ _ _).
  assert (tI None (oc_msize s2) (eJ s2) (oJ (oc_data s2) s2) x0) as HI0.
  { split; [apply oJ_refl|]. exists []. unfold x0. cbn [bs_buf bs_pos bs_fin bs_st bs_src resetBuffer].
    split; [split; [|split; [reflexivity|]]|].
    - unfold small_buf, b_size in Hsm. unfold rep, b_size. cbn [b_off b_avail b_mem]. change (zlen (@nil Z)) with 0. pose proof (zlen_nonneg (b_mem (bs_buf (ol_str a)))). do 6 (split; [lia|]). intros i Hi; lia.
    - unfold acc_ok. cbn [data_at in_content]. change (zlen (@nil Z)) with 0. split; [constructor|]. split; [exact I|]. split; [exact I|]. unfold s2; cbn [oc_msize]; lia.
    - split; [|discriminate]. intros _ _. exists 0%nat. change (zlen (@nil Z)) with 0. split; [apply oJ_refl|]. unfold s2. cbn [oc_bs oc_off oc_done oc_msize]. split; [exact Hbs|]. split; [lia|]. split; [lia|]. split; [reflexivity|]. split; reflexivity. }
  eapply safe_bind; [apply (tame_run (bs_ops (ole_src big)) None INT32_MAX True False (tI None (oc_msize s2) (eJ s2) (oJ (oc_data s2) s2))) with (h := h)|].
  - apply bs_tame; [exact HS|split; [lia|right; exact I]|unfold INT32_MAX; lia|tauto].
  - lia.
  - exact Hh.
  - exact HI0.
  - intros (x1 & obs) (HK & acc & (HR & _) & _). cbn [safe]. destruct HK as ((K1 & _) & K2 & K3 & K4).
    assert (oc_data (bs_src x1) = oc_data s) as Ed by (rewrite K1; unfold s2; cbn [oc_data]; exact D1).
    exists (Z.of_nat (meas (oc_data s) (bs_src x1))). split.
    + split; [lia|]. cbn [ol_str]. split; [destruct HR as (_ & _ & _ & R & _); exact R|]. rewrite Ed. split; [exact HB|]. intros _. split; [exact HBy|]. split; [rewrite K3; exact T2|reflexivity].
    + assert (meas (oc_data s) (bs_src x1) <= meas (oc_data s) s1)%nat; [|lia]. unfold meas. rewrite K3. change (oc_ti s2) with (oc_ti s1). change (oc_used s2) with (oc_used s1) in K4. change (oc_data s2) with (oc_data s1) in K4. rewrite D1 in K4. lia.
Qed.
(** the constructor *)
Lemma stops_readInt d b sz o : stops (readInt32 big d b sz o). Proof. unfold readInt32. st. Qed.
Lemma stops_bats n : forall d i mx, stops (ole_bats big n d i mx).
Proof. induction n as [|n IH]; intros d i mx; cbn [ole_bats]; st; first [apply stops_readInt|apply IH]. Qed.
Lemma stops_xblock n : forall d nb x i bat, stops (ole_xbat_block big n d nb x i bat).
Proof. induction n as [|n IH]; intros d nb x i bat; cbn [ole_xbat_block]; st; first [apply stops_readInt|apply IH]. Qed.
Lemma stops_xbat n : forall d nb x bat, stops (ole_xbat big n d nb x bat).
Proof. induction n as [|n IH]; intros d nb x bat; cbn [ole_xbat]; [discriminate|]. apply stops_bind; [apply stops_xblock|]. intros ? _. st; first [apply stops_readInt|apply IH]. Qed.
Lemma stops_collect n : forall d bat u b, stops (ole_collect big n d bat u b).
Proof. induction n as [|n IH]; intros d bat u b; cbn [ole_collect]; st; first [apply stops_next|apply IH]. Qed.
Section New.
Context {P : Type}.
Variables (par : ops P Z) (full : list Z) (neg : Prop) (I : P -> Prop).
Hypothesis HT : Tame par (Some full) INT32_MAX True neg I.
Lemma load_safe p : I p -> safe True (ole_load big par p) (fun r => match r with Some s => Forall (fun c => 0 <= c < 256) (oc_data s) /\ zlen (oc_data s) <= zlen full /\ oc_ti s = 0 | None => True end).
Proof.
  intros HI. unfold ole_load.
  assert (forall p mn mx, I p -> INT32_MIN <= mn <= INT32_MAX -> INT32_MIN <= mx <= INT32_MAX ->
    safe True (o_read par p mn mx) (fun '(p', n, d) => I p' /\ Forall (fun c => 0 <= c < 256) d /\ zlen d <= zlen full)) as Hrd.
  { intros q mn mx HQ H1 H2. eapply safe_impl; [apply (tm_read _ _ _ _ _ _ HT q mn mx HQ H1 ltac:(lia) H2)|tauto|]. intros ((p' & n) & d) (R1 & R2 & R3 & R4 & _ & R6 & R7 & _).
    split; [exact R1|]. split; [exact R4|]. destruct (tm_pos _ _ _ _ _ _ HT p' R1) as (_ & Q). destruct (tm_pos _ _ _ _ _ _ HT q HQ) as (Q0 & _). cbn [in_content] in Q. pose proof (zlen_nonneg full). lia. }
  assert (forall p, I p -> safe True (o_reset par p 0) (fun '(p', _) => I p')) as Hrs.
  { intros q HQ. eapply safe_impl; [apply (tm_reset _ _ _ _ _ _ HT q 0 HQ); lia|tauto|]. intros (p' & r) (R & _). exact R. }
  eapply safe_bind; [apply (Hrd p 512 512 HI); unfold INT32_MIN, INT32_MAX; lia|]. intros ((p1 & n1) & d1) (I1 & B1 & _). destruct (negb _); [exact Logic.I|].
  eapply safe_bind; [apply Hrs; exact I1|]. intros (p2 & r2) I2.
  assert (forall (X : Type) (x : out X), stops x -> safe True x (fun _ => True)) as Hst by (intros X x Hx; apply stops_safe; auto).
  do 5 (eapply safe_bind; [apply Hst; apply stops_le32|intros ? _]).
  eapply safe_bind; [apply Hst; unfold ole_check, memeq; st|]. intros ok _.
  eapply safe_bind; [apply Hst; st|]. intros lm _. destruct (_ || _); [exact Logic.I|].
  eapply safe_bind; [apply Hst; apply stops_bats|]. intros [(bat & mx)|] _; [|exact Logic.I]. cbv zeta.
  do 3 (eapply safe_bind; [apply Hst; apply stops_chk|intros ? _]). destruct (_ && _); [exact Logic.I|].
  set (tr := if 0 <? o_size par p2 then wrap32 (o_size par p2) else 10000000). assert (INT32_MIN <= tr <= INT32_MAX) as Htr.
  { unfold tr. destruct (_ <? _); [apply wrap32_range|unfold INT32_MIN, INT32_MAX; lia]. }
  clearbody tr. eapply safe_bind; [apply (Hrd p2 tr tr I2 Htr Htr)|]. intros ((p3 & n3) & d3) (I3 & B3 & L3).
  eapply safe_bind; [apply Hrs; exact I3|]. intros (p4 & r4) I4. destruct (negb _); [exact Logic.I|].
  do 2 (eapply safe_bind; [apply Hst; apply stops_chk|intros ? _]).
  eapply safe_bind; [apply Hst; apply stops_xbat|]. intros [bat2|] _; [|exact Logic.I].
  eapply safe_bind; [apply Hst; apply stops_collect|]. intros ((sb & u) & e) _.
  do 3 (eapply safe_bind; [apply Hst; apply stops_chk|intros ? _]).
  eapply safe_bind; [apply Hst; apply stops_readInt|]. intros [b|] _; [|exact Logic.I].
  eapply safe_bind; [apply Hst; apply stops_collect|]. intros ((sb2 & u2) & e2) _. cbn [safe oc_data oc_ti]. split; [exact B3|]. split; [exact L3|reflexivity].
Qed.
Theorem ole_safe p fuel k : I p -> zlen full + 3 < Z.of_nat fuel -> zlen full + 3 < Z.of_nat k ->
  safe True (ole_new big par p) (fun a => ends True (ole_provider big fuel) (fun _ => any_call INT32_MAX) k a).
Proof.
  intros HI Hf Hk. unfold ole_new. eapply safe_bind; [apply (load_safe p HI)|]. intros r Hr.
  set (s0 := match r with Some s => s | None => ole_dead end).
  destruct (new_buf s0) as (x & Ex & Es & Hsm). rewrite Ex. cbn [bind safe].
  assert (exists b, olI (zlen full) (mkOle x (mkInfo [] (-1) 0 0) match r with Some _ => Ok | None => Error end) b /\ b <= zlen full + 3) as (b & HO & Hb).
  { pose proof (zlen_nonneg full). destruct r as [s|].
    - destruct Hr as (R1 & R2 & R3). exists (Z.of_nat (meas (oc_data s0) s0)). split; [|pose proof (meas_bound (oc_data s0) s0); unfold s0 in *; lia].
      split; [lia|]. cbn [ol_str]. split; [exact Hsm|]. rewrite Es. split; [exact R2|]. intros _. split; [exact R1|]. split; [unfold s0; lia|reflexivity].
    - exists 0. split; [|lia]. split; [lia|]. cbn [ol_str]. split; [exact Hsm|]. rewrite Es. unfold s0. cbn [ole_dead oc_data oc_tb]. change (zlen (@nil Z)) with 0. split; [lia|]. lia. }
  eapply (ends_inv2 True (ole_provider big fuel) (fun _ => any_call INT32_MAX) (olI (zlen full))); [|exact HO|lia].
  intros st b' HI'. split; [apply HI'|]. apply next_safe; [exact Hf|exact HI'].
Qed.
End New.
End Ole.
