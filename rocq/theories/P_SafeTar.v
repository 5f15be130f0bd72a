(** tar archives of arbitrary bytes: every call returns, iteration ends. *)
From Verif Require Import Base StreamSpec P_Stream M_Sub ArchiveSpec M_Ar M_Tar P_Tame P_EntrySafe P_SafeAr.

Lemma is_oct_0 : is_oct 0 = false. Proof. reflexivity. Qed.
Lemma oct_val_safe l : In 0 l -> forall acc, exists v, oct_val acc l = Ret v.
Proof.
  induction l as [|c l IH]; intros Hin acc; [destruct Hin|]. cbn [oct_val]. destruct (is_oct c) eqn:E; [|eauto].
  apply IH. destruct Hin as [->|H]; [rewrite is_oct_0 in E; discriminate|exact H].
Qed.
Lemma scan_digits_safe (cr : Prop) ng l : cr \/ In 0 l -> safe cr (scan_digits ng l) (fun r => match r with Some v => INT32_MIN <= v <= INT32_MAX | None => True end).
Proof.
  intros H. unfold scan_digits. destruct l as [|c l]; [destruct H as [H|[]]; exact H|]. destruct (is_oct c); [|exact I].
  destruct H as [H|H].
  - destruct (oct_val 0 (c :: l)) eqn:E; cbn [bind safe]; try exact H; [apply wrap32_range|].
    clear - E. exfalso. assert (forall l acc, oct_val acc l <> Hang) as Hn by (clear; induction l as [|x l IH]; intros acc; cbn [oct_val]; [discriminate|destruct (is_oct x); [apply IH|discriminate]]). exact (Hn _ _ E).
  - destruct (oct_val_safe _ H 0) as (v & ->). cbn [bind safe]. apply wrap32_range.
Qed.
Lemma scan_octal_safe (cr : Prop) l : cr \/ In 0 l -> safe cr (scan_octal l) (fun r => match r with Some v => INT32_MIN <= v <= INT32_MAX | None => True end).
Proof.
  induction l as [|c l IH]; intros H; cbn [scan_octal]; [destruct H as [H|[]]; exact H|].
  assert (c <> 0 -> cr \/ In 0 l) as H' by (intros Hc; destruct H as [H|[H|H]]; [left; exact H|congruence|right; exact H]).
  destruct (is_ws c) eqn:E; [apply IH, H'; intros ->; discriminate|].
  destruct (Z.eqb_spec c 45); [apply scan_digits_safe, H'; lia|]. destruct (Z.eqb_spec c 43); [apply scan_digits_safe, H'; lia|].
  apply scan_digits_safe. exact H.
Qed.
Lemma in_slice0 b o i : 0 <= o <= i -> i < zlen b -> zget b i = Some 0 -> In 0 (slice b o (zlen b - o)).
Proof.
  intros H1 H2 H3. assert (zget (slice b o (zlen b - o)) (i - o) = Some 0) as E.
  { rewrite zget_slice by lia. destruct (Z.leb_spec 0 (i - o)), (Z.ltb_spec (i - o) (zlen b - o)); try lia. cbn [andb]. rewrite <- H3. f_equal. lia. }
  unfold zget in E. destruct (_ <? 0); [discriminate|]. eapply nth_error_In; exact E.
Qed.
Lemma strlen_safe l : In 0 l -> exists n, strlen l = Ret n /\ 0 <= n < zlen l.
Proof.
  induction l as [|c l IH]; intros H; [destruct H|]. cbn [strlen]. destruct (Z.eqb_spec c 0) as [->|N].
  - exists 0. split; [reflexivity|]. rewrite zlen_cons. pose proof (zlen_nonneg l). lia.
  - destruct H as [H|H]; [congruence|]. destruct (IH H) as (n & -> & Hn). cbn [bind]. exists (1 + n). split; [reflexivity|]. rewrite zlen_cons. lia.
Qed.
Lemma slice13 {A} (b : list A) q : slice (slice b q 512) 0 13 = slice b q 13.
Proof. unfold slice. change (Z.to_nat 0) with 0%nat. cbn [skipn]. rewrite firstn_firstn. reflexivity. Qed.
Lemma checkHeader_facts b : zlen b = 512 -> tar_checkHeader (slice b 0 257) = true -> zget b 107 = Some 0 /\ zget b 256 = Some 0.
Proof.
  intros Hl. unfold tar_checkHeader. rewrite zlen_slice by lia. change (257 <? 257) with false. cbv iota.
  destruct (negb _); [discriminate|]. destruct (all_zero _); [discriminate|]. rewrite !andb_true_iff. intros (((((H1 & _) & _) & _) & _) & H2).
  assert (forall i, 0 <= i < 257 -> (match zget (slice b 0 257) i with Some c => c | None => 0 end =? 0) = true -> zget b i = Some 0) as G.
  { intros i Hi E. rewrite zget_slice in E by lia. destruct (Z.leb_spec 0 i), (Z.ltb_spec i 257); try lia. cbn [andb] in E. change (0 + i) with i in E.
    destruct (zget_some b i) as (x & Ex); [lia|]. rewrite Ex in *. apply Z.eqb_eq in E. congruence. }
  split; apply G; (lia || assumption).
Qed.

Section Tar.
Context {P : Type}.
Variables (par : ops P Z) (content : option (list Z)) (B lim : Z) (cr neg : Prop) (I : P -> Prop).
Hypothesis HT : Tame par content lim cr neg I.
(** [B] bounds the positions *)
Hypothesis HB : forall p, I p -> o_pos par p <= B.
Hypothesis Hlim : 512 <= lim <= INT32_MAX.
(** no long names, or crashes are tolerated *)
Hypothesis HLL : (exists full, content = Some full /\ forall q, 0 <= q -> slice full q 13 <> longlink) \/ (cr /\ lim = INT32_MAX).

Lemma tar_block_safe p : I p -> safe cr (tar_block par p) (fun '(p', st, b) => I p' /\ o_pos par p <= o_pos par p' /\
  (st = Ok -> o_pos par p' = o_pos par p + 512 /\ zlen b = 512 /\ forall full, content = Some full -> b = slice full (o_pos par p) 512)).
Proof.
  intros HI. unfold tar_block. eapply safe_bind; [apply (tm_read _ _ _ _ _ _ HT p 512 512 HI); unfold INT32_MIN, INT32_MAX in *; lia|].
  intros ((p' & n) & b) (R1 & R2 & R3 & R4 & R5 & R6 & R7 & R8 & R9).
  destruct (_ || _); [cbn [safe]; split; [exact R1|split; [exact R6|congruence]]|].
  destruct (Z.eqb_spec n 512) as [->|]; cbn [negb]; [|cbn [safe]; split; [exact R1|split; [exact R6|congruence]]].
  destruct (Z.leb_spec 512 (zlen b)); cbn [negb]; [|lia]. cbn [safe]. split; [exact R1|]. split; [exact R6|]. intros _.
  assert (zlen b = 512) as Hb by lia. split; [apply R7; lia|]. split; [exact Hb|]. intros full ->. cbn [data_at] in R5. rewrite Hb in R5. exact R5.
Qed.
Lemma tar_zeros_safe fuel : forall first p, I p -> B < o_pos par p + 512 * Z.of_nat fuel ->
  safe cr (tar_zeros par fuel first p) (fun '(p', st) => I p' /\ o_pos par p <= o_pos par p' /\ st <> Ok).
Proof.
  induction fuel as [|f IH]; intros first p HI Hf.
  { pose proof (HB p HI). lia. }
  cbn [tar_zeros]. eapply safe_bind; [apply tar_block_safe; exact HI|]. intros ((p' & st) & b) (R1 & R2 & R3).
  destruct st; [|cbn [safe]; split; [exact R1|split; [lia|destruct first; congruence]]|cbn [safe]; split; [exact R1|split; [lia|congruence]]].
  destruct (R3 eq_refl) as (R4 & _). destruct (all_zero _); [|cbn [safe]; split; [exact R1|split; [lia|congruence]]].
  eapply safe_impl; [apply IH; [exact R1|lia]|tauto|]. intros (p2 & st2) (Q1 & Q2 & Q3). split; [exact Q1|]. split; [lia|exact Q3].
Qed.
Lemma tar_fields_safe (p : P) pad inf b name : 0 <= pad <= 1023 -> cr \/ (zget b 256 = Some 0 /\ name <> []) ->
  safe cr (tar_fields p pad inf b name) (fun '(p', pad', st, inf') => p' = p /\ 0 <= pad' <= 1023 /\ (st = Ok -> INT32_MIN <= i_size inf' <= INT32_MAX)).
Proof.
  intros Hpad Hc. unfold tar_fields, octalField.
  assert (forall o, 0 <= o <= 256 -> cr \/ In 0 (slice b o (zlen b - o))) as Ho.
  { intros o Hoo. destruct Hc as [Hc|(Hc & _)]; [left; exact Hc|right]. apply (in_slice0 b o 256); [lia|apply zget_some_inv in Hc; lia|exact Hc]. }
  eapply safe_bind; [apply scan_octal_safe, Ho; lia|]. intros [size|] Hs; [|cbn [safe]; split; [reflexivity|split; [lia|congruence]]].
  eapply safe_bind; [apply scan_octal_safe, Ho; lia|]. intros [mtime|] Hm; [|cbn [safe]; split; [reflexivity|split; [lia|congruence]]]. cbv zeta.
  assert (0 <= (if 512 - Z.rem size 512 =? 512 then 0 else 512 - Z.rem size 512) <= 1023) as Hp.
  { pose proof (Z.rem_bound_abs size 512 ltac:(lia)). destruct (Z.eqb_spec (512 - Z.rem size 512) 512); lia. }
  destruct (zget name (zlen name - 1)) as [c|] eqn:En.
  - destruct (zget b 156) as [ty|] eqn:Et.
    + cbn [safe i_size]. split; [reflexivity|]. split; [exact Hp|]. intros _; exact Hs.
    + destruct Hc as [Hc|(Hc & _)]; [exact Hc|]. apply zget_some_inv in Hc. destruct (zget_some b 156) as (x & Ex); [lia|congruence].
  - destruct Hc as [Hc|(_ & Hc)]; [exact Hc|]. exfalso. destruct name as [|c0 name]; [congruence|]. pose proof (zlen_nonneg name).
    destruct (zget_some (c0 :: name) (zlen (c0 :: name) - 1)) as (x & Ex); [rewrite zlen_cons; lia|congruence].
Qed.
Lemma tar_longLink_safe p b : I p -> cr -> lim = INT32_MAX -> safe cr (tar_longLink par p b) (fun '(p', st, _) => I p' /\ o_pos par p <= o_pos par p').
Proof.
  intros HI Hcr Hl. unfold tar_longLink, octalField. eapply safe_bind; [apply scan_octal_safe; left; exact Hcr|].
  intros [toread|] Ht; [|cbn [safe]; split; [exact HI|lia]]. cbv zeta.
  eapply safe_bind; [apply (tm_read _ _ _ _ _ _ HT p toread toread HI); lia|]. intros ((p' & n) & d) (R1 & R2 & R3 & R4 & R5 & R6 & _).
  destruct (negb (n =? toread)); [cbn [safe]; split; assumption|]. destruct (n <? 0); [exact Hcr|]. destruct (negb _); [exact Hcr|].
  eapply safe_bind; [apply (tm_skip _ _ _ _ _ _ HT p' _ R1); left; pose proof (Z.rem_bound_abs toread 512 ltac:(lia)); destruct (Z.rem toread 512 =? 0); lia|].
  intros (p2 & k) (Q1 & Q2 & _). destruct (negb _); cbn [safe]; (split; [exact Q1|lia]).
Qed.
Lemma tar_parse_safe fuel : forall p pad inf, I p -> 0 <= pad <= 1023 -> B < o_pos par p + 512 * Z.of_nat fuel ->
  safe cr (tar_parse par fuel p pad inf) (fun '(p', pad', st, inf') => I p' /\ 0 <= pad' <= 1023 /\ o_pos par p <= o_pos par p' /\
    (st = Ok -> o_pos par p + 512 <= o_pos par p' /\ INT32_MIN <= i_size inf' <= INT32_MAX)).
Proof.
  induction fuel as [|f IH]; intros p pad inf HI Hpad Hf.
  { pose proof (HB p HI). lia. }
  cbn [tar_parse]. eapply safe_bind; [apply tar_block_safe; exact HI|]. intros ((p1 & st) & b) (R1 & R2 & R3).
  destruct st; try (cbn [safe]; split; [exact R1|split; [exact Hpad|split; [lia|congruence]]]).
  destruct (R3 eq_refl) as (R4 & R5 & R6). clear R3.
  destruct (all_zero _).
  { eapply safe_bind; [apply tar_zeros_safe; [exact R1|lia]|]. intros (p2 & st2) (Q1 & Q2 & Q3). cbn [safe]. split; [exact Q1|split; [exact Hpad|split; [lia|congruence]]]. }
  destruct (tar_checkHeader (slice b 0 257)) eqn:Ec; cbn [negb]; [|cbn [safe]; split; [exact R1|split; [exact Hpad|split; [lia|congruence]]]].
  destruct (checkHeader_facts b R5 Ec) as (C1 & C2).
  destruct (strlen_safe b) as (len & -> & Hlen).
  { unfold zget in C1. destruct (107 <? 0); [discriminate|]. eapply nth_error_In; exact C1. }
  cbn [bind]. destruct (Z.eqb_spec len 0) as [|Hl0]; [cbn [safe]; split; [exact R1|split; [exact Hpad|split; [lia|congruence]]]|].
  cbv zeta. set (ln := if 100 <? len then 100 else len). assert (1 <= ln <= 100) as Hln by (unfold ln; destruct (Z.ltb_spec 100 len); lia). clearbody ln.
  assert (forall name, name <> [] -> safe cr (tar_fields p1 pad inf b name) (fun '(p', pad', st, inf') => I p' /\ 0 <= pad' <= 1023 /\ o_pos par p <= o_pos par p' /\
    (st = Ok -> o_pos par p + 512 <= o_pos par p' /\ INT32_MIN <= i_size inf' <= INT32_MAX))) as Hfields.
  { intros name Hn. eapply safe_impl; [apply tar_fields_safe; [exact Hpad|right; split; assumption]|tauto|].
    intros (((p2 & pad2) & st2) & inf2) (-> & Q1 & Q2). split; [exact R1|]. split; [exact Q1|]. split; [lia|]. intros H; split; [lia|apply Q2; exact H]. }
  destruct ((ln =? 13) && list_eqb (slice b 0 13) longlink) eqn:EL.
  { apply andb_true_iff in EL as (_ & EL). unfold list_eqb in EL. destruct (list_eq_dec Z.eq_dec (slice b 0 13) longlink) as [EL'|]; [|discriminate].
    destruct (tm_pos _ _ _ _ _ _ HT p HI) as (Hp0 & _). destruct HLL as [(full & Ef & HN)|(Hcr & Hl)]; [exfalso; rewrite (R6 full Ef), slice13 in EL'; exact (HN _ Hp0 EL')|].
    eapply safe_bind; [apply tar_longLink_safe; assumption|]. intros ((p2 & st2) & name) (Q1 & Q2).
    destruct st2; try (cbn [safe]; split; [exact Q1|split; [exact Hpad|split; [lia|congruence]]]).
    eapply safe_bind; [apply tar_block_safe; exact Q1|]. intros ((p3 & st3) & b3) (T1 & T2 & T3).
    destruct st3; try (cbn [safe]; split; [exact T1|split; [exact Hpad|split; [lia|congruence]]]).
    eapply safe_impl; [apply tar_fields_safe; [exact Hpad|left; exact Hcr]|tauto|].
    intros (((p4 & pad4) & st4) & inf4) (-> & U1 & U2). split; [exact T1|]. split; [exact U1|]. split; [lia|]. intros H; split; [lia|apply U2; exact H]. }
  assert (forall o n, 0 <= o -> 1 <= n -> o + n <= 512 -> slice b o n <> []) as Hne.
  { intros o n H1 H2 H3 E. assert (zlen (slice b o n) = n) as Z1 by (apply zlen_slice; lia). rewrite E in Z1. change (zlen (@nil Z)) with 0 in Z1. lia. }
  destruct (Z.ltb_spec 1 ln) as [L1|L1]; cbn [andb]; [|apply Hfields, Hne; lia].
  clear EL. destruct (list_eqb _ _); [|apply Hfields, Hne; lia].
  destruct (Z.eqb_spec ln 2); [|apply Hfields, Hne; lia].
  eapply safe_impl; [apply IH; [exact R1|exact Hpad|lia]|tauto|]. intros (((p2 & pad2) & st2) & inf2) (Q1 & Q2 & Q3 & Q4).
  split; [exact Q1|]. split; [exact Q2|]. split; [lia|]. intros H; specialize (Q4 H); lia.
Qed.

Definition tar_inv (a : tar P) : Prop := 0 <= t_pad a <= 1023 /\ match t_cur a with
  | inl p => I p
  | inr s => exists off size, sub_I par I off size s /\ 0 <= off /\ 0 <= size < 4294967296
  end.
Definition tar_base (a : tar P) : Z := match t_cur a with inl p => o_pos par p | inr s => su_off s end.
Lemma tar_base_le a : tar_inv a -> 0 <= tar_base a <= B.
Proof.
  unfold tar_inv, tar_base. destruct (t_cur a) as [p|s].
  - intros (_ & H). destruct (tm_pos _ _ _ _ _ _ HT p H) as (H1 & _). pose proof (HB p H). lia.
  - intros (_ & off & size & (H1 & H2 & H3 & H4 & _) & H5 & H6). destruct (tm_pos _ _ _ _ _ _ HT _ H1) as (H7 & _). pose proof (HB _ H1). lia.
Qed.
(** the input stream *)
Definition tar_in (a : tar P) : Prop := I (match t_cur a with inl p => p | inr s => su_par s end).
Lemma tar_inv_in a : tar_inv a -> tar_in a.
Proof. unfold tar_inv, tar_in. destruct (t_cur a) as [p|s]; [tauto|]. intros (_ & off & size & (H & _) & _). exact H. Qed.
(** the current entry *)
Definition tar_E (fuel : nat) (i : info) (a : tar P) : Prop := Firm par I -> entry_good (tar_provider par fuel) cr lim B i a.
Lemma tar_ends_from fuel : B < 512 * Z.of_nat fuel -> forall k a, tar_inv a -> B < Z.of_nat k ->
  ends_at cr (tar_provider par fuel) (within lim) (tar_E fuel) tar_in k a.
Proof.
  intros Hf k a Ha Hk. apply ends_inv_at with (Inv := tar_inv) (mu := fun a => B - tar_base a); [|exact Ha|pose proof (tar_base_le a Ha); lia].
  clear k a Ha Hk. intros a Ha. pose proof (tar_base_le a Ha) as Hb. split; [lia|]. cbn [tar_provider pv_next pv_entry]. unfold tar_next.
  destruct (t_st a) eqn:Est; try (cbn [safe]; apply tar_inv_in; exact Ha).
  destruct Ha as (Hpad & Ha).
  eapply safe_bind with (Q := fun p => I p /\ tar_base a <= o_pos par p).
  { unfold tar_base in *. destruct (t_cur a) as [p|s]; [cbn [safe]; split; [exact Ha|lia]|].
    destruct Ha as (off & size & HS & Hoff & Hsize). destruct HS as (S1 & S2 & S3 & S4 & S5).
    eapply safe_bind; [apply (sub_skip_any par content lim cr neg I HT) with (off := off) (size := size); [lia|lia|split; [exact S1|tauto]|rewrite S3; lia]|].
    intros (s' & k) (T1 & T2). eapply safe_bind; [apply (tm_skip _ _ _ _ _ _ HT _ (t_pad a) T1); left; lia|]. intros (p & k2) (U1 & U2 & _). cbn [safe]. split; [exact U1|lia]. }
  intros p (HIp & Hp). pose proof (tm_pos _ _ _ _ _ _ HT p HIp) as (Hp0 & Hp1).
  eapply safe_bind; [apply tar_parse_safe; [exact HIp|exact Hpad|lia]|]. intros (((p2 & pad2) & st) & inf) (R1 & R2 & R3 & R4).
  destruct st; try (cbn [safe]; exact R1). specialize (R4 eq_refl). destruct (Z.leb_spec 0 (i_size inf)) as [L|L]; [|cbn [safe]; exact R1].
  assert (0 <= i_size inf < 4294967296) as Hsz by (unfold INT32_MAX in *; lia).
  eapply safe_bind; [apply (sub_new_tame par cr I (o_pos par p2) (i_size inf)); [exact Hsz|exact R1|reflexivity]|].
  intros s (HS & Hok & Hz). cbn [safe]. split.
  { intros HF. apply (sub_good par content lim cr neg I HT HF ltac:(lia) B HB (o_pos par p2) (i_size inf) ltac:(lia) Hsz) with (s := s) (wrap := fun s' => mkTar (inr s') pad2 Ok inf); [|exact HS|exact Hok|exact Hz|reflexivity].
    intros h. reflexivity. }
  intros h Hh. unfold tar_entry. cbn [t_cur].
  eapply safe_bind.
  { apply (sub_run_tame par content lim cr neg I HT) with (off := o_pos par p2) (size := i_size inf) (i := inf);
      [lia|lia|exact Hsz|reflexivity|exact Hh|exact HS|congruence]. }
  intros (s' & obs) HS'. cbn [safe]. unfold tar_inv, tar_base. cbn [t_cur t_pad]. split; [split; [exact R2|]; exists (o_pos par p2), (i_size inf); split; [exact HS'|lia]|].
  destruct HS' as (_ & S2 & _). rewrite S2. unfold tar_base in *. lia.
Qed.
(** ... from the constructor on *)
Theorem tar_safe_in p fuel k : I p -> B < 512 * Z.of_nat fuel -> B < Z.of_nat k -> ends_at cr (tar_provider par fuel) (within lim) (tar_E fuel) tar_in k (tar_new p).
Proof. intros HI Hf Hk. apply tar_ends_from; [exact Hf| |exact Hk]. split; [cbn; lia|exact HI]. Qed.
End Tar.
Theorem tar_safe {P} (par : ops P Z) full lim (cr neg : Prop) (I : P -> Prop) : Tame par (Some full) lim cr neg I -> 512 <= lim <= INT32_MAX ->
  (forall q, 0 <= q -> slice full q 13 <> longlink) \/ (cr /\ lim = INT32_MAX) -> forall p fuel k, I p -> zlen full < 512 * Z.of_nat fuel -> zlen full < Z.of_nat k -> ends cr (tar_provider par fuel) (within lim) k (tar_new p).
Proof.
  intros HT Hl HLL p fuel k HI Hf Hk. eapply ends_at_ends, (tar_safe_in par (Some full) (zlen full) lim cr neg I HT (in_bound _ _ _ _ _ _ HT)); try eassumption.
  destruct HLL as [H|H]; [left; exists full; auto|right; exact H].
Qed.
