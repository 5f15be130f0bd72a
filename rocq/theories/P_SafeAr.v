(** ar archives of arbitrary bytes: every call returns, iteration ends. *)
From Verif Require Import Base StreamSpec P_Stream M_Sub ArchiveSpec M_Ar P_Tame P_EntrySafe.

Section Ar.
Context {P : Type}.
Variables (par : ops P Z) (content : option (list Z)) (B : Z) (cr neg : Prop) (I : P -> Prop).
Hypothesis HT : Tame par content INT32_MAX cr neg I.
(** [B] bounds the positions *)
Hypothesis HB : forall p, I p -> o_pos par p <= B.

Lemma atoi_range l : INT32_MIN <= atoi l <= INT32_MAX.
Proof. unfold atoi. destruct (skip_ws l); [unfold INT32_MIN, INT32_MAX; lia|apply wrap32_range]. Qed.

Lemma ar_header_safe fuel : forall p names inf, I p -> B < o_pos par p + 60 * Z.of_nat fuel ->
  safe cr (ar_header par fuel p names inf) (fun '(p', names', st, inf') =>
    I p' /\ o_pos par p <= o_pos par p' /\ (st = Ok -> o_pos par p + 60 <= o_pos par p' /\ 0 <= i_size inf' <= INT32_MAX)).
Proof.
  induction fuel as [|fuel IH]; intros p names inf HI Hf.
  { pose proof (HB p HI). lia. }
  cbn [ar_header].
  eapply safe_bind with (Q := fun p1 => I p1 /\ o_pos par p <= o_pos par p1).
  { destruct (negb _); [|cbn [safe]; split; [exact HI|lia]].
    eapply safe_bind; [apply (tm_skip _ _ _ _ _ _ HT p 1 HI); left; lia|]. intros (p1 & k) (R1 & R2 & _). cbn [safe]. tauto. }
  intros p1 (HI1 & Hp1).
  eapply safe_bind; [apply (tm_read _ _ _ _ _ _ HT p1 60 60 HI1); unfold INT32_MIN, INT32_MAX; lia|].
  intros ((p2 & n) & b) (R1 & R2 & R3 & R4 & R5 & R6 & R7 & R8 & R9).
  destruct (is_error _); [cbn [safe]; split; [exact R1|split; [lia|congruence]]|].
  destruct (Z.leb_spec n 1); [cbn [safe]; split; [exact R1|split; [lia|congruence]]|].
  destruct (Z.eqb_spec n 60) as [En|]; cbn [negb]; [|cbn [safe]; split; [exact R1|split; [lia|congruence]]].
  destruct (Z.leb_spec 60 (zlen b)); cbn [negb]; [|lia]. specialize (R7 ltac:(lia)). cbv zeta.
  pose proof (atoi_range (c_str (slice b 48 12))) as Hsz. set (size := atoi (c_str (slice b 48 12))) in *. clearbody size.
  destruct (Z.ltb_spec size 0); [cbn [safe]; split; [exact R1|split; [lia|congruence]]|].
  destruct (_ =? 0); [|cbn [safe i_size]; split; [exact R1|]; split; [lia|]; intros _; split; lia].
  destruct (zget_some b 1) as (b1 & E1); [lia|]. rewrite E1.
  destruct (b1 =? 47).
  { eapply safe_bind; [apply (tm_read _ _ _ _ _ _ HT p2 size size R1); unfold INT32_MIN, INT32_MAX in *; lia|].
    intros ((p3 & n3) & t) (T1 & T2 & T3 & T4 & T5 & T6 & T7 & T8 & T9).
    destruct (Z.eqb_spec n3 size); cbn [negb]; [|cbn [safe]; split; [exact T1|split; [lia|congruence]]].
    destruct (Z.leb_spec size (zlen t)); cbn [negb]; [|lia].
    eapply safe_bind; [apply IH; [exact T1|lia]|]. intros (((p4 & nm) & st) & inf4) (U1 & U2 & U3). cbn [safe i_size].
    split; [exact U1|]. split; [lia|]. intros Hst. specialize (U3 Hst). lia. }
  destruct (b1 =? 32).
  { eapply safe_bind; [apply (tm_skip _ _ _ _ _ _ HT p2 size R1); left; unfold INT32_MAX in *; lia|].
    intros (p3 & k3) (T1 & T2 & _).
    eapply safe_bind; [apply IH; [exact T1|lia]|]. intros (((p4 & nm) & st) & inf4) (U1 & U2 & U3). cbn [safe i_size].
    split; [exact U1|]. split; [lia|]. intros Hst. specialize (U3 Hst). lia. }
  destruct (_ <=? _); cbn [safe i_size]; (split; [exact R1|split; [lia|]]); [congruence|intros _; lia].
Qed.

Definition ar_inv (a : ar P) : Prop :=
  match a_cur a with
  | inl p => I p
  | inr s => exists off size, sub_I par I off size s /\ 0 <= off /\ 0 <= size < 4294967296
  end.
Definition ar_base (a : ar P) : Z := match a_cur a with inl p => o_pos par p | inr s => su_off s end.
Lemma ar_base_le a : ar_inv a -> 0 <= ar_base a <= B.
Proof.
  unfold ar_inv, ar_base. destruct (a_cur a) as [p|s].
  - intros H. destruct (tm_pos _ _ _ _ _ _ HT p H) as (H1 & _). pose proof (HB p H). lia.
  - intros (off & size & (H1 & H2 & H3 & H4 & _) & H5 & H6). destruct (tm_pos _ _ _ _ _ _ HT _ H1) as (H7 & _). pose proof (HB _ H1). lia.
Qed.
(** the input stream *)
Definition ar_in (a : ar P) : Prop := I (match a_cur a with inl p => p | inr s => su_par s end).
Lemma ar_inv_in a : ar_inv a -> ar_in a.
Proof. unfold ar_inv, ar_in. destruct (a_cur a) as [p|s]; [tauto|]. intros (off & size & (H & _) & _). exact H. Qed.
(** the current entry *)
Definition ar_E (fuel : nat) (i : info) (a : ar P) : Prop := Firm par I -> entry_good (ar_provider par fuel) cr INT32_MAX B i a.
Lemma ar_ends_from fuel : B < 60 * Z.of_nat fuel -> forall k a, ar_inv a -> B < Z.of_nat k ->
  ends_at cr (ar_provider par fuel) (within INT32_MAX) (ar_E fuel) ar_in k a.
Proof.
  intros Hf k a Ha Hk. apply ends_inv_at with (Inv := ar_inv) (mu := fun a => B - ar_base a); [|exact Ha|pose proof (ar_base_le a Ha); lia].
  clear k a Ha Hk. intros a Ha. pose proof (ar_base_le a Ha) as Hb. split; [lia|]. cbn [ar_provider pv_next pv_entry]. unfold ar_next.
  destruct (a_st a) eqn:Est; try (cbn [safe]; apply ar_inv_in; exact Ha).
  eapply safe_bind with (Q := fun p => I p /\ ar_base a <= o_pos par p).
  { unfold ar_inv, ar_base in *. destruct (a_cur a) as [p|s]; [cbn [safe]; split; [exact Ha|lia]|].
    destruct Ha as (off & size & HS & Hoff & Hsize). destruct HS as (S1 & S2 & S3 & S4 & S5).
    eapply safe_bind; [apply (sub_skip_any par content INT32_MAX cr neg I HT) with (off := off) (size := size); [unfold INT32_MAX; lia|lia|split; [exact S1|tauto]|rewrite S3; lia]|].
    intros (s' & k) (T1 & T2). cbn [safe]. split; [exact T1|lia]. }
  intros p (HIp & Hp). pose proof (tm_pos _ _ _ _ _ _ HT p HIp) as (Hp0 & Hp1).
  eapply safe_bind; [apply ar_header_safe; [exact HIp|lia]|]. intros (((p2 & nm) & st) & inf) (R1 & R2 & R3).
  destruct st; try (cbn [safe]; exact R1). specialize (R3 eq_refl).
  assert (0 <= i_size inf < 4294967296) as Hsz by (unfold INT32_MAX in *; lia).
  eapply safe_bind; [apply (sub_new_tame par cr I (o_pos par p2) (i_size inf)); [exact Hsz|exact R1|reflexivity]|].
  intros s (HS & Hok & Hz). cbn [safe]. split.
  { intros HF. apply (sub_good par content INT32_MAX cr neg I HT HF ltac:(unfold INT32_MAX; lia) B HB (o_pos par p2) (i_size inf) ltac:(lia) Hsz) with (s := s) (wrap := fun s' => mkAr (inr s') nm Ok inf); [|exact HS|exact Hok|exact Hz|reflexivity].
    intros h. reflexivity. }
  intros h Hh. unfold ar_entry. cbn [a_cur].
  eapply safe_bind.
  { apply (sub_run_tame par content INT32_MAX cr neg I HT) with (off := o_pos par p2) (size := i_size inf) (i := inf);
      [unfold INT32_MAX; lia|lia|exact Hsz|reflexivity|exact Hh|exact HS|congruence]. }
  intros (s' & obs) HS'. cbn [safe]. unfold ar_inv, ar_base. cbn [a_cur]. split; [exists (o_pos par p2), (i_size inf); split; [exact HS'|lia]|].
  destruct HS' as (_ & S2 & _). rewrite S2. unfold ar_base in *. lia.
Qed.
Lemma ar_new_safe p : I p -> safe cr (ar_new par p) ar_inv.
Proof.
  intros HI. unfold ar_new. eapply safe_bind; [apply (tm_read _ _ _ _ _ _ HT p 8 8 HI); unfold INT32_MIN, INT32_MAX; lia|].
  intros ((p2 & n) & d) (R1 & _). cbn [safe]. exact R1.
Qed.
(** ... from the constructor on *)
Theorem ar_safe_in p fuel k : I p -> B < 60 * Z.of_nat fuel -> B < Z.of_nat k ->
  safe cr (ar_new par p) (fun a => ends_at cr (ar_provider par fuel) (within INT32_MAX) (ar_E fuel) ar_in k a).
Proof. intros HI Hf Hk. eapply safe_impl; [apply ar_new_safe; exact HI|tauto|]. intros a Ha. apply ar_ends_from; assumption. Qed.
End Ar.
Theorem ar_safe {P} (par : ops P Z) full (cr neg : Prop) (I : P -> Prop) : Tame par (Some full) INT32_MAX cr neg I -> forall p fuel k, I p -> zlen full < 60 * Z.of_nat fuel -> zlen full < Z.of_nat k ->
  safe cr (ar_new par p) (fun a => ends cr (ar_provider par fuel) (within INT32_MAX) k a).
Proof.
  intros HT p fuel k HI Hf Hk. eapply safe_impl; [eapply (ar_safe_in par (Some full) (zlen full) cr neg I HT (in_bound _ _ _ _ _ _ HT)); eassumption|tauto|]. intros a. apply ends_at_ends.
Qed.
