(** Iterating over a mail ends (C26), whatever the bytes are. *)
From Verif Require Import Base StreamSpec P_Stream SegSpec M_StringStream M_Buffered BufferedSpec M_Sub ArchiveSpec KmpSpec M_Kmp P_Kmp M_StringTerm M_Base64 M_Ar M_Mail M_Reader M_MailList.
From Verif Require Import P_Buffered P_Tame P_TameBuf P_SafeZip P_SafeCpio P_SafeST.

Lemma zlen_slice_any {A} (l : list A) o n : zlen (slice l o n) <= zlen l.
Proof. unfold zlen, slice. rewrite firstn_length, skipn_length. lia. Qed.
Lemma hl_char_facts state linepos c : match hl_char state linepos c with inl e => state <> 0 /\ e <= linepos - 1 | inr s => True end.
Proof.
  unfold hl_char. destruct (Z.eqb_spec state 0); [exact I|]. destruct (state =? 1); [destruct (c =? 10); [exact I|]; destruct (_ || _); [lia|exact I]|].
  destruct (state =? 2); [destruct (_ || _); [lia|exact I]|]. destruct (_ || _); [lia|exact I].
Qed.
Lemma hl_scan_facts l : forall linepos state, 0 < linepos \/ linepos = 0 /\ state = 0 -> match hl_scan l linepos state with inl (e, lp) => 1 <= lp /\ linepos <= lp < linepos + zlen l /\ e <= lp - 1 | inr _ => True end.
Proof.
  induction l as [|c l IH]; intros linepos state H; cbn [hl_scan]; [exact I|]. pose proof (hl_char_facts state linepos c) as F. pose proof (zlen_nonneg l). rewrite zlen_cons.
  destruct (hl_char state linepos c) as [e|s].
  - destruct F. lia.
  - specialize (IH (linepos + 1) s ltac:(lia)). destruct (hl_scan l (linepos + 1) s) as [(e & lp)|]; [lia|exact I].
Qed.
(** the boundaries are short byte strings *)
Definition bounds_ok (maxl : Z) (l : list (list Z)) : Prop := Forall (fun b => bytes b /\ zlen b <= maxl) l.
Lemma drop_ws_ok maxl l : bytes l -> zlen l <= maxl -> bytes (drop_ws l) /\ zlen (drop_ws l) <= maxl.
Proof.
  induction l as [|c l IH]; cbn [drop_ws]; intros H1 H2; [auto|]. inversion H1; subst. rewrite zlen_cons in H2. destruct (is_ws c); [apply IH; [assumption|lia]|rewrite zlen_cons; auto].
Qed.
Lemma value_ok maxl n l : bytes l -> zlen l <= maxl -> bytes (value n l) /\ zlen (value n l) <= maxl.
Proof.
  intros H1 H2. unfold value. pose proof (zlen_nonneg l). cbv zeta. destruct (strcasestr n (c_str l)); [|change (zlen (@nil Z)) with 0; split; [constructor|lia]].
  destruct (_ && _); (split; [apply Forall_slice; exact H1|]); pose proof (fun o k => zlen_slice_any l o k) as Q; (eapply Z.le_trans; [apply Q|exact H2]).
Qed.
Lemma bytes_skipn n l : bytes l -> bytes (skipn n l).
Proof. unfold bytes. rewrite !Forall_forall. intros H x Hx. apply H. rewrite <- (firstn_skipn n l). apply in_or_app. right. exact Hx. Qed.
Lemma handle_ok maxl h l : bytes l -> zlen l <= maxl -> bounds_ok maxl (hd_bound h) -> bounds_ok maxl (hd_bound (handleHeaderLine h l)).
Proof.
  intros H1 H2 H3. unfold handleHeaderLine. cbv zeta. destruct (zlen l <? 8); [exact H3|].
  repeat match goal with |- context [if ci_prefix ?n l then _ else _] => destruct (ci_prefix n l); [cbn [set_meta hd_bound]; try exact H3|] end; try exact H3.
  assert (bytes (skipn 13 l) /\ zlen (skipn 13 l) <= maxl) as (S1 & S2) by (split; [apply bytes_skipn; exact H1|unfold zlen in *; rewrite skipn_length; lia]).
  destruct (drop_ws_ok maxl _ S1 S2) as (D1 & D2). pose proof (value_ok maxl s_boundary _ D1 D2) as V.
  destruct (value s_boundary (drop_ws (skipn 13 l))); [exact H3|]. constructor; [exact V|exact H3].
Qed.

Section Mail.
Context {P : Type}.
Variables (par : ops P Z) (content : option (list Z)) (B : Z) (neg : Prop) (I : P -> Prop) (hi : P -> Z).
Hypothesis HT : Tame par content INT32_MAX True neg I.
Hypothesis HB0 : 0 <= B.
Hypothesis HBe : forall q, at_end content q -> q = B.
Hypothesis HS : Seek par (B) I hi.
Hypothesis Hneg : neg.
Hypothesis Hsize : B <= INT32_MAX.
Variables (maxl : Z) (fuel : nat).
Hypothesis Hmaxl : 1 <= maxl <= 2 ^ 28.
Hypothesis Hfuel : B + 2 < Z.of_nat fuel.

Definition line_post (next : Z) (r : hline) (p' : P) : Prop :=
  I p' /\ next <= hi p' /\ match r with
  | HLine l next' => next < next' <= hi p' /\ next <= o_pos par p' /\ zlen l + 1 <= next' - next /\ zlen l <= maxl /\ bytes l
  | _ => True
  end.
Lemma hl_loop_safe f : forall p next linepos state, I p -> 0 <= next <= hi p -> next <= o_pos par p \/ o_status par p = Error -> 0 < linepos \/ linepos = 0 /\ state = 0 ->
  linepos <= maxl -> B - linepos < Z.of_nat f -> linepos <= B ->
  safe True (hl_loop par maxl f p next linepos state) (fun '(p', r) => line_post next r p').
Proof.
  induction f as [|f IH]; intros p next linepos state HI Hn Hp Hl Hm Hf Hlf; [lia|]. cbn [hl_loop].
  eapply safe_bind; [apply (rd2 par content B neg I hi HT HS p (linepos + 1) maxl HI); unfold INT32_MIN, INT32_MAX; lia|].
  intros ((p1 & n) & d) (R1 & R2 & R3 & R4 & R5 & R6 & R7 & R8 & R9 & R10).
  destruct (Z.ltb_spec n (linepos + 1)) as [L|L].
  { cbn [safe]. split; [exact R1|]. split; [lia|exact Logic.I]. }
  specialize (R6 ltac:(lia)). pose proof (ipos par content B neg I hi HT HS _ R1) as P1. pose proof (ipos par content B neg I hi HT HS _ HI) as P0.
  eapply safe_bind; [apply (rs2 par content B neg I hi HT HS p1 next R1); lia|]. intros (p2 & r) (T1 & T2 & T3 & T4 & T5).
  destruct (is_error (o_status par p2)) eqn:Ee; cbn [orb]; [cbn [safe]; split; [exact T1|]; split; [lia|exact Logic.I]|].
  destruct (Z.leb_spec maxl linepos); [cbn [safe]; split; [exact T1|]; split; [lia|exact Logic.I]|]. specialize (R7 ltac:(lia)).
  replace (zlen d <? n) with false by (symmetry; apply Z.ltb_ge; lia).
  assert (o_status par p1 <> Error) as N1 by (intros Q; rewrite (T5 Q) in Ee; discriminate). specialize (T4 N1 ltac:(lia)).
  destruct Hp as [Hp|Hp]; [|specialize (R9 Hp); lia].
  assert (slice d 0 n = d) as Esl by (replace n with (zlen d) by lia; apply slice_all). rewrite Esl.
  pose proof (hl_scan_facts (skipn (Z.to_nat linepos) d) linepos state Hl) as F.
  assert (zlen (skipn (Z.to_nat linepos) d) = n - linepos) as Zs by (unfold zlen in *; rewrite skipn_length; lia). rewrite Zs in F.
  destruct (hl_scan _ linepos state) as [(e & lp)|state'].
  - cbn [safe]. split; [exact T1|]. split; [lia|]. destruct F as (F1 & F2 & F3).
    assert (zlen (slice d 0 e) <= Z.max 0 e) as Zl by (unfold zlen, slice; rewrite firstn_length; lia).
    split; [lia|]. split; [lia|]. split; [lia|]. split; [lia|]. apply Forall_slice. exact R4.
  - apply IH; try assumption; lia.
Qed.
Lemma readLine_safe p next : I p -> 0 <= next <= hi p -> safe True (readHeaderLine par maxl fuel p next) (fun '(p', r) => line_post next r p').
Proof.
  intros HI Hn. unfold readHeaderLine. eapply safe_bind; [apply (rs2 par content B neg I hi HT HS p next HI); lia|]. intros (p1 & r) (T1 & T2 & T3 & T4 & T5).
  pose proof HB0. apply hl_loop_safe; try assumption; try lia.
  destruct (o_status par p1) eqn:E; auto; left; (destruct (o_status par p) eqn:E0; [apply T4; [congruence|lia]|apply T4; [congruence|lia]|specialize (T5 eq_refl); congruence]).
Qed.
Definition ml_ok (m : ml P) : Prop := I (l_in m) /\ 0 <= l_next m <= hi (l_in m) /\ bounds_ok maxl (hd_bound (l_hd m)).
Lemma ml_next m : ml_ok m -> l_next m <= B.
Proof. intros (H1 & H2 & _). pose proof (ipos par content B neg I hi HT HS _ H1). lia. Qed.
Lemma l_line_safe m : ml_ok m -> safe True (l_line par maxl fuel m) (fun '(m', r) => ml_ok m' /\ l_hd m' = l_hd m /\ l_next m <= l_next m' /\
  match r with
  | HLine l next' => l_st m' = l_st m /\ l_next m < l_next m' /\ l_next m <= o_pos par (l_in m') /\ zlen l + 1 <= l_next m' - l_next m /\ zlen l <= maxl /\ bytes l
  | _ => l_st m' <> Ok /\ l_next m' = l_next m
  end).
Proof.
  intros (H1 & H2 & H3). unfold l_line. eapply safe_bind; [apply (readLine_safe (l_in m) (l_next m) H1 H2)|]. intros (p & r) (R1 & R2 & R3).
  cbn [safe]. destruct r as [l next'|l|]; unfold ml_ok; cbn [l_in l_next l_hd l_st].
  - destruct R3 as (R3 & R4 & R5 & R6 & R7). split; [split; [exact R1|]; split; [lia|exact H3]|]. split; [reflexivity|]. split; [lia|]. split; [reflexivity|]. split; [lia|]. split; [exact R4|]. split; [exact R5|]. split; assumption.
  - split; [split; [exact R1|]; split; [lia|exact H3]|]. split; [reflexivity|]. split; [lia|]. split; [congruence|reflexivity].
  - split; [split; [exact R1|]; split; [lia|exact H3]|]. split; [reflexivity|]. split; [lia|]. split; [congruence|reflexivity].
Qed.
Lemma ml_handle m l st : ml_ok m -> bytes l -> zlen l <= maxl -> ml_ok (mkMl (l_in m) (l_next m) (handleHeaderLine (l_hd m) l) st).
Proof. intros (H1 & H2 & H3) Hb Hl. split; [exact H1|]. split; [exact H2|]. apply handle_ok; assumption. Qed.
Lemma readHeader_safe f : forall m, ml_ok m -> B - l_next m < Z.of_nat f -> safe True (readHeader par maxl fuel f m) (fun m' => ml_ok m').
Proof.
  induction f as [|f IH]; intros m Hm Hf; [pose proof (ml_next m Hm); lia|]. cbn [readHeader].
  eapply safe_bind; [apply (l_line_safe m Hm)|]. intros (m1 & r) (R1 & R2 & R3 & R4). destruct r as [[|c l] next|l|]; try exact R1.
  destruct R4 as (R4 & R5 & R6 & R7 & R8 & R9). apply IH; [apply ml_handle; assumption|cbn [l_next]; lia].
Qed.
Lemma partHeader_safe f : forall m, ml_ok m -> B - l_next m < Z.of_nat f -> safe True (partHeader par maxl fuel f m) (fun m' => ml_ok m' /\ l_next m <= l_next m' /\ (l_st m' = Ok -> l_st m = Ok /\ l_next m < l_next m')).
Proof.
  induction f as [|f IH]; intros m Hm Hf; [pose proof (ml_next m Hm); lia|]. cbn [partHeader].
  eapply safe_bind; [apply (l_line_safe m Hm)|]. intros (m1 & r) (R1 & R2 & R3 & R4). destruct r as [l next|l|].
  - destruct R4 as (R4 & R5 & R6 & R7 & R8 & R9). destruct (match l_st m1 with Ok => _ | _ => false end).
    + eapply safe_impl; [apply IH; [apply ml_handle; assumption|cbn [l_next]; lia]|tauto|]. cbn [l_next l_st]. intros m' (A1 & A2 & A3). split; [exact A1|]. split; [lia|]. intros Q. destruct (A3 Q). split; [congruence|lia].
    + cbn [safe]. split; [exact R1|]. split; [lia|]. intros Q. split; [congruence|lia].
  - cbn [safe]. split; [exact R1|]. split; [lia|]. intros Q. destruct R4. contradiction.
  - cbn [safe]. split; [exact R1|]. split; [lia|]. intros Q. destruct R4. contradiction.
Qed.
(** the current entry, with its stream starting behind [lb] *)
Definition cur_ok (lb : Z) (c : cur P) : Prop :=
  match c with
  | CSub s => uI par (B) I (o_pos par (su_par s)) s
  | CPart s => stI par I hi lb s
  | CB64 x => tI None (B) (bJ par B I hi lb (B)) (fun q => stI par I hi lb (q_par q)) x
  end.
Definition is_sub (c : cur P) : Prop := match c with CSub _ => True | _ => False end.
Definition part_post (lb : Z) (r : option (cur P * list Z)) (none : Prop) : Prop :=
  match r with None => none | Some (c, _) => exists lb', lb <= lb' <= B /\ cur_ok lb' c /\ ~ is_sub c end.
Lemma part_post_le lb lb' r (n n' : Prop) : lb' <= lb -> (n -> n') -> part_post lb r n -> part_post lb' r n'.
Proof. intros H Hn. unfold part_post. destruct r as [(c & f)|]; [|exact Hn]. intros (x & H1 & H2 & H3). exists x. split; [lia|tauto]. Qed.
Lemma b64_new_ok lb s : 0 <= lb -> stI par I hi lb s -> cur_ok lb (CB64 (bs_new (b64_new s))).
Proof.
  intros Hlb HI. cbn [cur_ok].
  destruct (tI_init (b64_src (st_ops par) fuel) None (B) True (bJ par B I hi lb (B)) (fun q => stI par I hi lb (q_par q))
    (b64_tame par content B neg I hi HT HS Hsize lb (B) fuel ltac:(lia)) (b64_new s) 1%nat (-1) 0) as (b & E & Hx).
  - unfold bJ, b_ok, b_more, b64_new, q_null, q_par. cbn [q_in q_win q_todo q_cc Z.eqb]. change (zlen (@nil Z)) with 0.
    assert (st_left par B s <= B) by (unfold st_left; destruct HI as (Q & _); pose proof (ipos par content B neg I hi HT HS _ Q); lia).
    split; [split; [exact HI|]; split; [lia|]; split; [constructor|lia]|]. split; [right; right; lia|]. split; [reflexivity|lia].
  - exact HB0.
  - unfold BUF_LIM; lia.
  - vm_compute in E. injection E as <-. exact Hx.
Qed.
Lemma handleBody_safe m : ml_ok m -> safe True (handleBodyLine par maxl fuel m) (fun '(m', r) => bounds_ok maxl (hd_bound (l_hd m')) /\ part_post (l_next m + 1) r (ml_ok m' /\ l_next m <= l_next m' /\ (l_st m' = Ok -> l_st m = Ok /\ l_next m < l_next m')) /\ (r <> None -> l_st m = Ok /\ hd_bound (l_hd m') <> [])).
Proof.
  intros Hm. unfold handleBodyLine. cbv zeta.
  eapply safe_bind; [apply (partHeader_safe fuel (mkMl (l_in m) (l_next m) (mkHd (hd_meta (l_hd m)) [] [] [] (hd_bound (l_hd m))) (l_st m)))|].
  - exact Hm.
  - cbn [l_next]. destruct Hm as (_ & Hm & _). lia.
  - cbn [l_next l_st]. intros m1 (A1 & A2 & A3). destruct (Nat.ltb _ _).
    { cbn [safe part_post]. split; [apply A1|]. split; [tauto|congruence]. }
    eapply safe_bind; [apply (l_line_safe m1 A1)|]. intros (m2 & r) (R1 & R2 & R3 & R4).
    assert (l_st m2 = Ok -> l_st m1 = Ok /\ l_next m1 <= o_pos par (l_in m2)) as R5.
    { intros Q. destruct r as [l next|l|]; [|destruct R4; contradiction..]. destruct R4 as (R4 & _ & R6 & _). split; [congruence|exact R6]. }
    destruct (l_st m2) eqn:Est.
    2,3: cbn [safe part_post]; (split; [apply R1|]); (split; [split; [exact R1|]; split; [lia|congruence]|congruence]).
    destruct (R5 eq_refl) as (R6 & R7). destruct (A3 R6) as (A4 & A5).
    destruct (hd_bound (l_hd m1)) as [|b bs] eqn:Eb; [exact Logic.I|].
    pose proof A1 as (_ & Hn1 & Hb). rewrite Eb in Hb. inversion Hb as [|? ? (Hb1 & Hb2) Hb3]; subst. destruct R1 as (Q1 & Q2 & Q3).
    pose proof (ipos par content B neg I hi HT HS _ Q1) as Hp2. pose proof (zlen_nonneg b).
    eapply safe_bind.
    { apply (st_new_safe par content B neg I hi HT HS (o_pos par (l_in m2)) (proj1 Hp2) (l_in m2) (45 :: 45 :: b) Q1); [lia| |].
      - constructor; [lia|]. constructor; [lia|exact Hb1].
      - rewrite !zlen_cons. lia. }
    intros s (S1 & S2). cbn [safe]. split; [exact Q3|]. split; [|intros _; split; [exact A4|rewrite R2, Eb; discriminate]]. cbn [part_post]. exists (o_pos par (l_in m2)). split; [destruct Hm as (_ & Hm & _); lia|].
    destruct (strcasestr _ _); [|cbn [cur_ok is_sub]; tauto]. split; [apply b64_new_ok; [lia|exact S1]|cbn; tauto].
Qed.
Lemma scanBody_safe f : forall m, ml_ok m -> (l_st m = Ok -> B - l_next m < Z.of_nat f) ->
  safe True (scanBody par maxl fuel f m) (fun '(m', r) => bounds_ok maxl (hd_bound (l_hd m')) /\ part_post (l_next m + 4) r (ml_ok m') /\ (r <> None -> hd_bound (l_hd m') <> [])).
Proof.
  induction f as [|f IH]; intros m Hm Hf; cbn [scanBody]; destruct (l_st m) eqn:Est; try (cbn [safe part_post]; split; [apply Hm|split; [exact Hm|congruence]]).
  { specialize (Hf eq_refl). pose proof (ml_next m Hm). lia. }
  specialize (Hf eq_refl). eapply safe_bind; [apply (l_line_safe m Hm)|]. intros (m1 & r) (R1 & R2 & R3 & R4).
  destruct r as [l next|l|]; [| |exact Logic.I].
  - destruct R4 as (R4 & R5 & R6 & R7 & R8 & R9).
    assert (forall m2, ml_ok m2 -> l_next m1 <= l_next m2 -> safe True (scanBody par maxl fuel f m2) (fun '(m', r) => bounds_ok maxl (hd_bound (l_hd m')) /\ part_post (l_next m + 4) r (ml_ok m') /\ (r <> None -> hd_bound (l_hd m') <> []))) as Rec.
    { intros m2 M1 M2. eapply safe_impl; [apply (IH m2 M1); lia|tauto|]. intros (m' & r) (N1 & N2 & N3). split; [exact N1|]. split; [|exact N3]. revert N2. apply part_post_le; [lia|tauto]. }
    destruct (Z.ltb_spec 2 (zlen l)) as [L2|L2]; cbn [andb]; [|apply Rec; [exact R1|lia]].
    destruct (list_eqb (slice l 0 2) [45; 45]); [|apply Rec; [exact R1|lia]].
    destruct (hd_bound (l_hd m1)) as [|b bs] eqn:Eb; [exact Logic.I|].
    destruct (_ && _ && _).
    + cbv zeta. apply Rec; [|cbn [l_next]; lia]. destruct R1 as (Q1 & Q2 & Q3). split; [exact Q1|]. split; [exact Q2|]. cbn [l_hd hd_bound]. rewrite Eb in Q3. inversion Q3; assumption.
    + destruct (_ && _); [|apply Rec; [exact R1|lia]].
      eapply safe_bind; [apply (handleBody_safe m1 R1)|]. intros (m2 & e) (E1 & E2 & E3). destruct e as [e|].
      * cbn [safe]. split; [exact E1|]. split; [|intros Q; apply (E3 Q)]. revert E2. apply part_post_le; [lia|tauto].
      * cbn [part_post] in E2. destruct E2 as (E4 & E5 & E6). apply Rec; [exact E4|lia].
  - destruct R4 as (R4 & R5).
    assert (forall m2, ml_ok m2 -> l_st m2 <> Ok -> safe True (scanBody par maxl fuel f m2) (fun '(m', r) => bounds_ok maxl (hd_bound (l_hd m')) /\ part_post (l_next m + 4) r (ml_ok m') /\ (r <> None -> hd_bound (l_hd m') <> []))) as Rec.
    { intros m2 M1 M2. assert (scanBody par maxl fuel f m2 = Ret (m2, None)) as -> by (destruct f; cbn [scanBody]; destruct (l_st m2); congruence). cbn [safe part_post]. split; [apply M1|]. split; [exact M1|congruence]. }
    destruct (_ && _); [|apply Rec; assumption].
    destruct (hd_bound (l_hd m1)) as [|b bs] eqn:Eb; [exact Logic.I|].
    destruct (_ && _ && _).
    + cbv zeta. apply Rec; [|cbn [l_st]; destruct bs; [congruence|exact R4]]. destruct R1 as (Q1 & Q2 & Q3). split; [exact Q1|]. split; [exact Q2|]. cbn [l_hd hd_bound]. rewrite Eb in Q3. inversion Q3; assumption.
    + destruct (_ && _); [|apply Rec; assumption].
      eapply safe_bind; [apply (handleBody_safe m1 R1)|]. intros (m2 & e) (E1 & E2 & E3). destruct e as [e|].
      * exfalso. apply R4, E3. discriminate.
      * cbn [part_post] in E2. destruct E2 as (E4 & E5 & E6). apply Rec; [exact E4|]. intros Q. destruct (E6 Q). contradiction.
Qed.
(** the provider; [b] bounds the number of entries to come *)
Definition mail_inv (a : mail P) (b : Z) : Prop :=
  0 <= b /\ (l_st (a_ml a) = Ok -> bounds_ok maxl (hd_bound (l_hd (a_ml a))) /\
  match a_cur a with
  | None => ml_ok (a_ml a) /\ B - l_next (a_ml a) + 1 <= b
  | Some c => exists lb, 1 <= lb <= B /\ hd_bound (l_hd (a_ml a)) <> [] /\ cur_ok lb c /\ ~ is_sub c /\ B - lb + 2 <= b
  end).
Lemma cur_stI lb c : cur_ok lb c -> ~ is_sub c -> exists s, cur_sub c = Some s /\ stI par I hi lb s.
Proof.
  intros H Hn. destruct c as [s|s|x]; cbn [is_sub cur_ok cur_sub] in *; [tauto|eauto|]. destruct H as (H & _). eauto.
Qed.
Notation mail_call := (within_max INT32_MAX).
Lemma mail_call_st i h : Forall (mail_call i) h -> Forall st_call h.
Proof. apply Forall_impl. intros [mn mx|n|q] ((H1 & _) & H2); cbn in *; lia. Qed.
Lemma mail_call_any i h : Forall (mail_call i) h -> Forall (any_call INT32_MAX) h.
Proof. apply Forall_impl. intros c ((H & _) & _). exact H. Qed.
Lemma mail_call_within i h : Forall (mail_call i) h -> Forall (within INT32_MAX i) h.
Proof. apply Forall_impl. intros c (H & _). exact H. Qed.
Lemma entry_safe entry i ml0 c num inf h lb : entry = mail_entry par fuel \/ entry = mail_entry_any par fuel -> Forall (mail_call i) h -> 0 <= lb -> cur_ok lb c -> (forall s, c = CSub s -> su_st s <> Error) ->
  safe True (entry (mkMail ml0 (Some c) num inf) h) (fun '(a', _) => exists c', a' = mkMail ml0 (Some c') num inf /\ (is_sub c <-> is_sub c') /\ (~ is_sub c -> cur_ok lb c')).
Proof.
  intros He Hh Hlb Hc Hs. destruct c as [s|s|x]; cbn [cur_ok] in Hc.
  - assert (entry (mkMail ml0 (Some (CSub s)) num inf) h = mail_entry par fuel (mkMail ml0 (Some (CSub s)) num inf) h) as -> by (destruct He as [-> | ->]; reflexivity).
    unfold mail_entry. cbn [a_cur a_ml a_num a_info].
    eapply safe_bind; [apply (u_run par content B INT32_MAX True neg I HT) with (i := i) (off := o_pos par (su_par s)); try exact Logic.I; try exact Hneg; try reflexivity|].
    + intros p Hp. pose proof (ipos par content B neg I hi HT HS p Hp). lia.
    + intros q Hq. exact (HBe q Hq).
    + unfold INT32_MAX; lia.
    + left. split; [exact Logic.I|]. split; [reflexivity|exact Hneg].
    + apply mail_call_within with (1 := Hh).
    + exact Hc.
    + apply Hs. reflexivity.
    + intros (s' & obs) _. cbn [safe]. exists (CSub s'). cbn [is_sub]. split; [reflexivity|]. tauto.
  - assert (safe True (run_seg false (st_ops par) s view0 h) (fun '(s', _) => stI par I hi lb s') /\ safe True (run (st_ops par) s h) (fun '(s', _) => stI par I hi lb s')) as (G1 & G2).
    { split; [apply (st_run_seg_safe par content B neg I hi HT HS Hsize lb Hlb); [apply (mail_call_st i h Hh)|exact Hc|cbn; lia|cbn; lia]|apply (st_run_safe par content B neg I hi HT HS Hsize lb Hlb); [apply (mail_call_st i h Hh)|exact Hc]]. }
    destruct He as [-> | ->]; unfold mail_entry, mail_entry_any; cbn [a_cur a_ml a_num a_info]; (eapply safe_bind; [first [exact G1|exact G2]|]); intros (s' & obs) R; cbn [safe]; exists (CPart s'); cbn [is_sub cur_ok]; (split; [reflexivity|tauto]).
  - assert (entry (mkMail ml0 (Some (CB64 x)) num inf) h = mail_entry par fuel (mkMail ml0 (Some (CB64 x)) num inf) h) as -> by (destruct He as [-> | ->]; reflexivity).
    unfold mail_entry. cbn [a_cur a_ml a_num a_info]. pose proof (b64_tame par content B neg I hi HT HS Hsize lb (B) fuel ltac:(lia)) as TS.
    eapply safe_bind; [apply (tame_run _ _ _ _ False _ (bs_tame _ _ _ _ _ _ TS INT32_MAX (conj (Z.le_refl _) (or_intror Logic.I)) False ltac:(unfold INT32_MAX; lia) ltac:(tauto)) (Z.le_refl _) h (mail_call_any i h Hh) x Hc)|].
    intros (x' & obs) R. cbn [safe]. exists (CB64 x'). cbn [is_sub cur_ok]. split; [reflexivity|tauto].
Qed.
Definition provider_of (entry : mail P -> list call -> out (mail P * list (obs Z))) : provider (mail P) := mkProvider _ (mail_next par maxl fuel) entry (fun a => l_st (a_ml a)).
Lemma mail_ends_from entry : entry = mail_entry par fuel \/ entry = mail_entry_any par fuel -> forall k a b, mail_inv a b -> b < Z.of_nat k -> ends True (provider_of entry) mail_call k a.
Proof.
  intros He. apply ends_inv2. intros a b (Hb & Ha). split; [exact Hb|]. cbn [provider_of pv_next pv_entry]. unfold mail_next. cbv zeta.
  destruct (l_st (a_ml a)) eqn:Est; [|exact Logic.I..]. destruct (Ha eq_refl) as (Hbo & Hc). clear Ha.
  assert (safe True (match match a_cur a with Some c => cur_sub c | None => None end with
    | None => Ret (a_ml a)
    | Some s => let* s := drain par fuel s in Ret (match t_st s with Error => mkMl (t_in s) (l_next (a_ml a)) (l_hd (a_ml a)) Error | _ => mkMl (t_in s) (t_off s + t_size s) (l_hd (a_ml a)) (l_st (a_ml a)) end)
    end) (fun m => l_hd m = l_hd (a_ml a) /\ (l_st m = Ok -> ml_ok m /\ B - l_next m + 1 <= b))) as Hdr.
  { destruct (a_cur a) as [c|].
    - destruct Hc as (lb & H1 & H0 & H2 & H3 & H4). destruct (cur_stI lb c H2 H3) as (s & E & HI). rewrite E.
      assert (st_left par B s <= B) by (unfold st_left; destruct HI as (Q & _); pose proof (ipos par content B neg I hi HT HS _ Q); lia).
      eapply safe_bind; [apply (drain_safe par content B neg I hi HT HS Hsize lb fuel s HI); lia|]. intros s' (R1 & R2). cbn [safe].
      destruct R1 as (Q1 & Q2 & Q3 & (Q4 & Q5 & Q6) & _).
      destruct (t_st s'); (split; [reflexivity|]); cbn [l_st l_next]; intros Q0; try congruence; (split; [split; [exact Q1|]; split; [cbn [l_next l_in]; lia|exact Hbo]|lia]).
    - cbn [safe]. split; [reflexivity|]. intros _. exact Hc. }
  destruct (hd_bound (l_hd (a_ml a))) as [|b0 bs] eqn:Eb.
  - destruct (a_cur a) as [c|] eqn:Ec; [destruct Hc as (lb & _ & H0 & _); congruence|]. destruct Hc as ((Q1 & Q2 & Q3) & Q4).
    pose proof (ipos par content B neg I hi HT HS _ Q1) as Hp.
    unfold sub_new. cbn [Z.ltb Z.compare bind]. change (-1 <? -1) with false. cbn [bind]. cbn [safe]. intros h Hh.
    eapply safe_impl; [apply (entry_safe entry _ _ _ _ _ h 0 He Hh ltac:(lia))|tauto|].
    + cbn [cur_ok su_par]. unfold uI. cbn [su_par su_off su_size su_pos su_st]. split; [exact Q1|]. split; [reflexivity|]. split; [lia|]. split; [left; reflexivity|]. intros _. left. lia.
    + intros s E. assert (su_st s = Ok) as -> by (injection E as <-; reflexivity). congruence.
    + intros (a' & obs) (c' & -> & _). exists (b - 1). split; [|lia]. split; [|cbn [a_ml l_st]; congruence].
      lia.
  - rewrite Est in Hdr. eapply safe_bind; [exact Hdr|]. clear Hdr Hc. intros m (M1 & M2). destruct (l_st m) eqn:Em; [|exact Logic.I..]. destruct (M2 eq_refl) as (M3 & M4).
    eapply safe_bind; [apply (scanBody_safe fuel m M3); destruct M3 as (_ & M3 & _); lia|]. intros (m' & r) (R1 & R2 & R3). cbv zeta.
    destruct r as [(c & nm)|]; [|exact Logic.I]. cbn [part_post] in R2. destruct R2 as (lb & L1 & L2 & L3). assert (0 <= l_next m) as Ln by apply M3.
    cbn [safe]. intros h Hh. eapply safe_impl; [apply (entry_safe entry _ _ _ _ _ h lb He Hh ltac:(lia) L2)|tauto|].
    + intros s ->. exfalso. apply L3. exact Logic.I.
    + intros (a' & obs) (c' & -> & C1 & C2). exists (b - 1). split; [|lia]. split; [lia|]. cbn [a_ml a_cur]. intros _. split; [exact R1|].
      exists lb. split; [lia|]. split; [apply R3; discriminate|]. split; [apply C2; exact L3|]. split; [tauto|lia].
Qed.
(** nextEntry() of a new MailInputStream: without an entry the input is in a known state *)
Lemma mail_first a : a_cur a = None -> ml_ok (a_ml a) -> safe True (mail_next par maxl fuel a) (fun '(a', r) => r = None -> a_cur a' = None /\ I (l_in (a_ml a'))).
Proof.
  intros Ec Hm. unfold mail_next. rewrite Ec. cbv zeta.
  destruct (l_st (a_ml a)) eqn:Est; [|cbn [safe]; intros _; split; [reflexivity || assumption|apply Hm]..].
  destruct (hd_bound (l_hd (a_ml a))) as [|b0 bs]; [unfold sub_new; change (-1 <? -1) with false; cbn [bind safe]; discriminate|]. cbn [bind]. rewrite Est.
  eapply safe_bind; [apply (scanBody_safe fuel (a_ml a) Hm); destruct Hm as (_ & Hm & _); lia|]. intros (m' & r) (R1 & R2 & R3). cbv zeta.
  destruct r as [(c & nm)|]; [discriminate|]. cbn [safe]. intros _. split; [reflexivity|]. apply R2.
Qed.
Theorem mail_safe_in p : I p -> safe True (mail_new par maxl fuel p) (fun a =>
  safe True (mail_next par maxl fuel a) (fun '(a', r) => r = None -> a_cur a' = None /\ I (l_in (a_ml a'))) /\
  forall k, B + 1 < Z.of_nat k -> ends True (mail_provider par maxl fuel) (within_max INT32_MAX) k a /\ ends True (mail_provider_any par maxl fuel) (within_max INT32_MAX) k a).
Proof.
  intros HI. unfold mail_new. pose proof (ipos par content B neg I hi HT HS p HI) as Hp.
  assert (ml_ok (mkMl p 0 (mkHd (fun _ => []) [] [] [] []) Ok)) as H0 by (split; [exact HI|]; split; [cbn [l_next l_in]; lia|constructor]).
  eapply safe_bind; [apply (readHeader_safe fuel _ H0); cbn [l_next]; lia|]. intros m Hm. cbn [safe]. split; [apply mail_first; [reflexivity|exact Hm]|]. intros k Hk.
  assert (mail_inv (mkMail m None 0 (mkInfo [] (-1) 0 0)) (B + 1)) as Hi.
  { split; [lia|]. intros _. cbn [a_ml a_cur]. split; [apply Hm|]. split; [exact Hm|]. destruct Hm as (_ & Hm & _). lia. }
  split; [change (mail_provider par maxl fuel) with (provider_of (mail_entry par fuel))|change (mail_provider_any par maxl fuel) with (provider_of (mail_entry_any par fuel))]; (eapply mail_ends_from; [|exact Hi|lia]); auto.
Qed.
End Mail.
Theorem mail_safe {P} (par : ops P Z) (full : list Z) (neg : Prop) (I : P -> Prop) (hi : P -> Z) : Tame par (Some full) INT32_MAX True neg I -> Seek par (zlen full) I hi -> neg -> zlen full <= INT32_MAX ->
  forall maxl fuel, 1 <= maxl <= 2 ^ 28 -> zlen full + 2 < Z.of_nat fuel -> forall p, I p -> safe True (mail_new par maxl fuel p) (fun a => forall k, zlen full + 1 < Z.of_nat k ->
  ends True (mail_provider par maxl fuel) (within_max INT32_MAX) k a /\ ends True (mail_provider_any par maxl fuel) (within_max INT32_MAX) k a).
Proof.
  intros HT HS Hneg Hsize maxl fuel Hm Hf p HI. eapply safe_impl; [exact (mail_safe_in par (Some full) (zlen full) neg I hi HT (zlen_nonneg full) (fun q Hq => Hq) HS Hneg Hsize maxl fuel Hm Hf p HI)|tauto|].
  intros a (_ & H). exact H.
Qed.
