(** Proofs for C53: entries of archives and of mails in the same way. *)
From Coq Require Import Bool Permutation.
From Verif Require Import Base StreamSpec P_Stream SegSpec ArchiveSpec KmpSpec BufferedSpec M_Text InflateSpec LzmaSpec DetectSpec TextSpec
  MailPartsSpec T_MailList M_Inflate M_Lzma M_Open OpenSpec P_Open T_Open M_Listing M_ListReal ListRealSpec P_ListReal1 P_ListReal2.

(** an entry: its stream takes all calls, or ([n_seg]) is that of a part of a mail that is not encoded *)
Record ent := mkEnt { n_info : info; n_data : list Z; n_seg : option Z }.
Definition ent_call (lim : Z) (u : ent) : call -> Prop := match n_seg u with None => call_ok (n_data u) lim | Some tl => seg_call lim tl end.
Definition ent_obs (u : ent) (h : list call) (obs : list (obs Z)) : Prop :=
  match n_seg u with None => accepts (n_data u) False view0 h obs | Some _ => accepts_seg false (n_data u) False view0 h obs end.
Fixpoint lists_u {St} (pv : provider St) (lim : Z) (us : list ent) (st : St) : Prop :=
  match us with
  | [] => exists st', pv_next pv st = Ret (st', None)
  | u :: us => exists st1, pv_next pv st = Ret (st1, Some (n_info u)) /\
      forall h, Forall (ent_call lim u) h -> exists st2 obs, pv_entry pv st1 h = Ret (st2, obs) /\ ent_obs u h obs /\ lists_u pv lim us st2
  end.
Definition at_u {St} (pv : provider St) (lim : Z) (us : list ent) (st : St) (i : info) : Prop :=
  match us with
  | [] => False
  | u :: us => i = n_info u /\ forall h, Forall (ent_call lim u) h -> exists st2 obs, pv_entry pv st h = Ret (st2, obs) /\ ent_obs u h obs /\ lists_u pv lim us st2
  end.
Definition of_member (m : member) : ent := mkEnt (m_info m) (m_data m) None.
Definition ent_of (lim k : Z) (p : mpart) (u : ent) : Prop :=
  exists nm, match p_name p with Some v => nm = v | None => decimal k nm end /\ u = mkEnt (mkInfo nm (-1) 0 2) (p_data p) (if p_enc p then None else Some (p_tl p)) /\ 0 <= p_tl p /\ 1024 + p_tl p <= lim.
Fixpoint ents_of (lim k : Z) (ps : list mpart) (us : list ent) : Prop :=
  match ps, us with
  | [], [] => True
  | p :: ps, u :: us => ent_of lim k p u /\ ents_of lim (k + 1) ps us
  | _, _ => False
  end.
Lemma lists_end_u {St} fin (pv : provider St) lim ms : forall st, lists_end fin pv lim ms st -> lists_u pv lim (map of_member ms) st.
Proof.
  induction ms as [|m ms IH]; intros st; cbn [lists_end lists_u map]; [intros (st' & E & _); eauto|]. intros (st1 & E & _ & H). exists st1. split; [exact E|].
  intros h Hh. destruct (H h Hh) as (st2 & obs & E2 & HA & HL). exists st2, obs. split; [exact E2|]. split; [exact HA|]. apply IH. exact HL.
Qed.
Lemma at_first_u {St} fin (pv : provider St) lim ms st i : at_first fin pv lim ms st i -> at_u pv lim (map of_member ms) st i.
Proof.
  destruct ms as [|m ms]; cbn [at_first at_u map]; [tauto|]. intros (-> & _ & H). split; [reflexivity|].
  intros h Hh. destruct (H h Hh) as (st2 & obs & E2 & HA & HL). exists st2, obs. split; [exact E2|]. split; [exact HA|]. eapply lists_end_u. exact HL.
Qed.

(** ** numbers are written in one way *)
Definition dval (s : list Z) : Z := fold_left (fun a c => 10 * a + (c - 48)) s 0.
Lemma dval_snoc s c : dval (s ++ [c]) = 10 * dval s + (c - 48).
Proof. unfold dval. rewrite fold_left_app. reflexivity. Qed.
Definition dnum (s : list Z) : Prop := Forall (fun c => 48 <= c <= 57) s /\ (s = [] \/ exists c r, s = c :: r /\ c <> 48).
Lemma dnum_snoc s c : dnum (s ++ [c]) -> dnum s /\ 48 <= c <= 57 /\ (s = [] -> c <> 48).
Proof.
  intros (H1 & H2). apply Forall_app in H1. destruct H1 as (H1 & H3). inversion H3; subst. split; [|split; [assumption|]].
  - split; [exact H1|]. destruct s as [|a s]; [left; reflexivity|right]. destruct H2 as [H2|(b & r & H2 & Hb)]; [discriminate|]. injection H2 as <- <-. eauto.
  - intros ->. destruct H2 as [H2|(b & r & H2 & Hb)]; [discriminate|]. injection H2 as -> <-. exact Hb.
Qed.
Lemma dval_pos s : dnum s -> 0 <= dval s /\ (s <> [] -> 1 <= dval s).
Proof.
  induction s as [|c s IH] using rev_ind; intros H; [split; [unfold dval; cbn; lia|congruence]|].
  apply dnum_snoc in H. destruct H as (H & Hc & Hz). specialize (IH H). rewrite dval_snoc. destruct s as [|a s].
  - specialize (Hz eq_refl). unfold dval. cbn [fold_left]. split; intros; lia.
  - destruct IH as (_ & IH). specialize (IH ltac:(discriminate)). split; intros; lia.
Qed.
Lemma dval_inj s : forall s', dnum s -> dnum s' -> dval s = dval s' -> s = s'.
Proof.
  induction s as [|c s IH] using rev_ind; intros s' H H' E.
  - destruct s' as [|a s']; [reflexivity|]. apply dval_pos in H'. destruct H' as (_ & H'). specialize (H' ltac:(discriminate)). change (dval []) with 0 in E. lia.
  - destruct s' as [|a s' _] using rev_ind.
    { apply dval_pos in H. destruct H as (_ & H). specialize (H ltac:(destruct s; discriminate)). rewrite E in H. change (dval []) with 0 in H. lia. }
    apply dnum_snoc in H, H'. destruct H as (H & Hc & _). destruct H' as (H' & Hc' & _). rewrite !dval_snoc in E.
    assert (dval s = dval s' /\ c = a) as (E1 & ->) by lia. f_equal. apply IH; assumption.
Qed.
Lemma decimal_unique k s s' : decimal k s -> decimal k s' -> s = s'.
Proof. intros (H1 & H2 & H3) (H1' & H2' & H3'). apply dval_inj; [split; auto|split; auto|unfold dval; congruence]. Qed.

Lemma call_ok_lim (data : list Z) lim lim' c : lim' <= lim -> call_ok data lim' c -> call_ok data lim c.
Proof. destruct c; cbn [call_ok]; lia. Qed.
Lemma part_ent lim k p u i : lim <= BUF_LIM -> ent_of lim k p u -> match p_name p with Some v => i_name i = v | None => decimal k (i_name i) end -> i_size i = -1 /\ i_mtime i = 0 -> i_type i = 2 ->
  i = n_info u /\ (forall h, Forall (ent_call lim u) h -> Forall (part_call lim p) h) /\ forall h obs, part_obs p h obs -> ent_obs u h obs.
Proof.
  intros HL (nm & Hnm & -> & _) Hi (Hs & Hm) Ht. cbn [n_info]. split.
  - destruct i as [n s m t]. cbn [i_name i_size i_mtime i_type] in *. subst. f_equal. destruct (p_name p); [congruence|eapply decimal_unique; eassumption].
  - unfold ent_call, part_call, ent_obs, part_obs. cbn [n_seg n_data]. destruct (p_enc p); [|auto]. split; [|auto]. intros h. apply Forall_impl. intros c. apply call_ok_lim. exact HL.
Qed.
Lemma lists_parts_u {St} (pv : provider St) lim ps : lim <= BUF_LIM -> forall k us st, ents_of lim k ps us -> lists_parts pv lim k ps st -> lists_u pv lim us st.
Proof.
  intros HL. induction ps as [|p ps IH]; intros k [|u us] st; cbn [ents_of lists_parts lists_u]; try tauto; [intros _ (st' & E & _); eauto|].
  intros (Hu & Hus) (st1 & i & E & _ & H1 & H2 & H3 & H). destruct (part_ent lim k p u i HL Hu H1 H2 H3) as (-> & Hc & Ho). exists st1. split; [exact E|].
  intros h Hh. destruct (H h (Hc h Hh)) as (st2 & obs & E2 & HA & Hl). exists st2, obs. split; [exact E2|]. split; [apply Ho; exact HA|]. eapply IH; eassumption.
Qed.
Lemma at_part_u {St} (pv : provider St) lim ps us st i : lim <= BUF_LIM -> ents_of lim 1 ps us -> at_first_part pv lim ps st i -> at_u pv lim us st i.
Proof.
  intros HL. destruct ps as [|p ps], us as [|u us]; cbn [ents_of at_first_part at_u]; try tauto.
  intros (Hu & Hus) (_ & H1 & H2 & H3 & H). destruct (part_ent lim 1 p u i HL Hu H1 H2 H3) as (-> & Hc & Ho). split; [reflexivity|].
  intros h Hh. destruct (H h (Hc h Hh)) as (st2 & obs & E2 & HA & Hl). exists st2, obs. split; [exact E2|]. split; [apply Ho; exact HA|]. eapply lists_parts_u; eassumption.
Qed.
(** the delimiter is not too long *)
Lemma parts_tl nl maxl bs t ps : parts nl maxl bs t ps -> Forall (boundary_ok maxl) bs -> Forall (fun p => 0 <= p_tl p <= maxl) ps.
Proof.
  induction 1 as [b bs l t ps _ _ _ _ _ _ _ IH|b bs hs body t r ps nm enc _ _ _ _ _ _ _ _ _ IH|b bs hs b' t ps _ _ Hb' _ _ IH|b bs t ps _ _ IH|t]; intros HF.
  - apply IH. exact HF.
  - constructor; [|apply IH; exact HF]. cbn [p_tl]. inversion HF as [|? ? Hb _]; subst. destruct Hb as (_ & _ & _ & _ & _ & Hb). unfold delimiter. rewrite !zlen_cons. pose proof (zlen_nonneg b). lia.
  - apply IH. constructor; [exact Hb'|exact HF].
  - apply IH. inversion HF; assumption.
  - constructor.
Qed.

Section Hold.
Variables (fz fg fb : format) (fl : lzformat) (unix : Z -> Z) (lim N : Z).
Notation holds := (holds fz fg fb fl unix lim N).
Notation hold_members := (hold_members fz fg fb fl unix lim N).
Notation hold_parts := (hold_parts fz fg fb fl unix lim N).
Inductive hold_u : list ent -> list entry -> Prop :=
| hu_nil : hold_u [] []
| hu_full i data real s us l : holds false data s -> measured i data s real -> hold_u us l -> hold_u (mkEnt i data None :: us) (Entry i real s :: l)
| hu_seg i data tl real us l : plain data -> bytes data -> data <> [] -> zlen data <= N -> no_archive data -> measured i data Plain real -> i_size i < 0 -> 0 <= tl -> 1024 + tl <= lim ->
    hold_u us l -> hold_u (mkEnt i data (Some tl) :: us) (Entry i real Plain :: l).
Lemma members_u ms : forall l, hold_members ms l <-> hold_u (map of_member ms) l.
Proof.
  induction ms as [|m ms IH]; intros l; cbn [map of_member]; split; intros H; inversion H; subst; try constructor; try assumption; try (apply IH; assumption).
Qed.
Lemma parts_u ps : forall k l, hold_parts k ps l -> Forall (fun p => 0 <= p_tl p /\ 1024 + p_tl p <= lim) ps -> exists us, ents_of lim k ps us /\ hold_u us l.
Proof.
  induction ps as [|p ps IH]; intros k l H HF; inversion H as [k0|k0 p0 ps0 nm real s es He Hnm Hh Hm Hr|k0 p0 ps0 nm real es He Hnm H1 H2 H3 H4 H5 H6 Hr]; subst.
  - exists []. split; [exact Logic.I|constructor].
  - inversion HF as [|? ? Hp HF']; subst. destruct (IH _ _ Hr HF') as (us & E & HU). exists (mkEnt (mkInfo nm (-1) 0 2) (p_data p) None :: us). cbn [ents_of]. split; [split; [|exact E]|constructor; assumption].
    exists nm. rewrite He. split; [exact Hnm|]. split; [reflexivity|exact Hp].
  - inversion HF as [|? ? Hp HF']; subst. destruct (IH _ _ Hr HF') as (us & E & HU). exists (mkEnt (mkInfo nm (-1) 0 2) (p_data p) (Some (p_tl p)) :: us). cbn [ents_of]. split; [split; [|exact E]|constructor; try assumption; try lia; cbn; lia].
    exists nm. rewrite He. split; [exact Hnm|]. split; [reflexivity|exact Hp].
Qed.
Lemma u_parts ps : forall k us l, ents_of lim k ps us -> hold_u us l -> hold_parts k ps l.
Proof.
  induction ps as [|p ps IH]; intros k [|u us] l HE HU; cbn [ents_of] in HE; try tauto; [inversion HU; constructor|].
  destruct HE as ((nm & Hnm & -> & _) & HE). destruct (p_enc p) eqn:Ee; inversion HU; subst; [eapply hp_encoded|eapply hp_text]; try eassumption; eauto.
Qed.
Lemma holds_len top c s : holds top c s -> bytes c /\ zlen c <= N.
Proof.
  intros H. assert (exists x, unpacked fg fb fl N top c x) as (x & ls & Hc & _) by (inversion H; subst; eauto). inversion Hc; subst; split; assumption.
Qed.
Lemma plain_unpacked ls c x : compressed fb fg fl N ls c x -> plain c -> x = c.
Proof.
  intros Hc (P1 & P2 & P3). inversion Hc; subst; [reflexivity|exfalso; apply P1; assumption|exfalso; apply P2; assumption|].
  exfalso. apply P3. match goal with X : is_lzma ?hh |- _ => destruct X as (di & sz & X1 & X2 & (t & X3) & X4 & X5) end.
  exists di, sz. split; [exact X1|]. split; [exact X2|]. split; [|split; assumption]. exists (t ++ c0 ++ rest). rewrite X3, <- !app_assoc. reflexivity.
Qed.
End Hold.
