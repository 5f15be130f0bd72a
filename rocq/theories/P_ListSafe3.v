(** Going through the files in a file of arbitrary bytes ends (C55): the levels. *)
From Coq Require Import Bool.
From Verif Require Import Base StreamSpec P_Stream BufferedSpec M_Inflate InflateSpec M_Lzma LzmaSpec ArchiveSpec M_Zip CacheSpec M_Cache M_Listing M_Open M_ListReal.
From Verif Require Import P_Tame P_EntrySafe P_OpenSafe P_ListSafe1 P_ListSafe2.

Section Levels.
Context {Dg Db Dl : Type}.
Variables (cg : codec Dg) (cb : codec Db) (cl : lzcodec Dl) (bufsize : Z) (gas : nat) (alloc_ok : bool) (subs : list sub_type) (fuel : nat).
Notation lim := INT32_MAX.
(** the sizes: the streams of level [l] have at most [B l] bytes *)
Variables (B : nat -> Z) (k : nat).
Hypothesis HB0 : forall l, (l <= 10)%nat -> B l < Z.of_nat fuel.
Hypothesis Hopen : forall l R (x : anystream R), (l <= 9)%nat -> ok_any False (B l) x -> safe True (open_archive cg cb cl bufsize gas alloc_ok subs x) (opened_good (B (S l)) k).
Notation rfr := (rframe lim).
(** the frame [g] of level [l] above the frame [f]: [m] entries may follow the current one *)
Definition under (l : nat) (g f : rfr) (m : nat) : Prop :=
  match r_p lim g with Found pv s i _ => good (B (S l)) m pv s i /\ r_len lim f = entry_len pv s i fuel | NoArchive _ => False end.
Fixpoint chain (gs : list rfr) (f : rfr) (ms : list nat) : Prop :=
  match gs, ms with
  | [], [] => True
  | g :: gs, m :: ms => under (length gs) g f m /\ chain gs g ms
  | _, _ => False
  end.
Definition top (l : nat) (f : rfr) (c : Z) : Prop :=
  match r_p lim f with Found pv s i _ => exists m, c = Z.of_nat m + 2 /\ good (B (S l)) m pv s i | NoArchive _ => c = 1 end.
Definition K : Z := Z.of_nat k + 3.
Definition w (l : nat) : Z := K ^ (10 - Z.of_nat l).
Fixpoint pf (ms : list nat) : Z := match ms with [] => 0 | m :: ms => (Z.of_nat m + 1) * w (length ms) + pf ms end.
Definition rooted (st : list rfr) : Prop := exists t, rlist_root lim st = Some t.
Definition inv (st : list rfr) (d phi : Z) : Prop :=
  exists gs f rest ms c, st = rev gs ++ f :: rest /\ zlen st = 10 /\ zlen gs = d /\ chain gs f ms /\ top (length gs) f c /\ phi = pf ms + c * w (length gs) /\ rooted st.
Lemma w_pos l : (l <= 10)%nat -> 1 <= w l.
Proof. intros H. unfold w, K. assert (0 < (Z.of_nat k + 3) ^ (10 - Z.of_nat l)); [apply Z.pow_pos_nonneg; lia|lia]. Qed.
Lemma w_next l : (l <= 9)%nat -> w l = K * w (S l).
Proof. intros H. unfold w. rewrite <- Z.pow_succ_r by lia. f_equal. lia. Qed.
Lemma pf_nonneg ms : (length ms <= 10)%nat -> 0 <= pf ms.
Proof. induction ms as [|m ms IH]; cbn [pf length]; [lia|]. intros H. pose proof (w_pos (length ms) ltac:(lia)). specialize (IH ltac:(lia)). nia. Qed.
Lemma chain_len gs : forall f ms, chain gs f ms -> length ms = length gs.
Proof. induction gs as [|g gs IH]; intros f [|m ms]; cbn [chain length]; try tauto. intros (_ & H). f_equal. eapply IH; exact H. Qed.
(** the frames *)
Lemma rat_at (gs : list rfr) f rest : rat lim (rev gs ++ f :: rest) (zlen gs) = Ret f.
Proof.
  unfold rat. rewrite zget_app. assert (zlen (rev gs) = zlen gs) as -> by (unfold zlen; rewrite rev_length; reflexivity).
  destruct (Z.ltb_spec (zlen gs) (zlen gs)); [lia|]. rewrite Z.sub_diag. reflexivity.
Qed.
Lemma rput_at (gs : list rfr) f f' rest : rput lim (rev gs ++ f :: rest) (zlen gs) f' = rev gs ++ f' :: rest.
Proof.
  unfold rput, splice. assert (Z.to_nat (zlen gs) = length (rev gs)) as -> by (unfold zlen; rewrite rev_length; lia).
  rewrite firstn_app, Nat.sub_diag, firstn_all. cbn [firstn]. rewrite app_nil_r. f_equal. cbn [app length]. f_equal. rewrite skipn_app, skipn_all2 by lia. cbn [app]. replace (length (rev gs) + 1 - length (rev gs))%nat with 1%nat by lia. reflexivity.
Qed.
Lemma rooted_put (st : list rfr) d f t : 0 <= d < zlen st -> rooted st -> r_entry lim f = Some t -> rooted (rput lim st d f).
Proof.
  intros Hd (t0 & H0) Hf. unfold rooted, rlist_root, rput in *. rewrite zget_splice by (change (zlen [f]) with 1; lia). change (zlen [f]) with 1.
  destruct ((d <=? 0) && (0 <? d + 1)) eqn:E; [|eauto]. apply andb_true_iff in E as (E1 & E2). apply Z.leb_le in E1. replace (0 - d) with 0 by lia. cbn. eauto.
Qed.
Lemma zlen_put (st : list rfr) d f : 0 <= d < zlen st -> zlen (rput lim st d f) = zlen st.
Proof. intros Hd. unfold rput. apply zlen_splice; change (zlen [f]) with 1; lia. Qed.
(** an entry is left *)
Lemma add_safe (gs : list rfr) f rest ce h m ms : zlen (rev gs ++ f :: rest) = 10 -> rooted (rev gs ++ f :: rest) -> chain gs f ms ->
  (match r_p lim f with Found pv s i _ => good (B (S (length gs))) m pv s i /\ forallb (call_okb (entry_len pv s i fuel) lim) h = true | NoArchive _ => True end) ->
  safe True (real_add lim fuel (rev gs ++ f :: rest) (zlen gs) ce h) (fun '(st', d') => d' = zlen gs /\ exists phi, inv st' d' phi /\ phi <= pf ms + (Z.of_nat m + 1) * w (length gs)).
Proof.
  intros Hz Hr Hch Hf. unfold real_add. rewrite rat_at. cbn [bind]. destruct f as [len [St pv s i inp|h0] en]; cbn [r_p r_entry r_len] in *; [|exact Logic.I]. destruct en as [parent|]; [|exact Logic.I].
  destruct Hf as (((X & e & x0 & J & wrap & bq & E1 & E2 & E3 & E4 & E5 & E6 & E7) & Hnext) & Hh).
  pose proof (entry_len_le pv s i lim _ bq e x0 J wrap E1 E2 E3 E4 E5 E7 ltac:(unfold INT32_MAX; lia) fuel) as Hlen.
  assert (Forall (okc lim bq) h) as Hok. { apply Forall_forall. intros c Hc. rewrite forallb_forall in Hh. apply (call_okb_okc lim bq _ (proj2 Hlen)). apply Hh; exact Hc. }
  assert (forall h, Forall (okc lim bq) h -> Forall (within lim i) h) as Hwi. { intros h' H. eapply Forall_impl; [|exact H]. intros c (A1 & A2). split; [exact A1|]. destruct c; auto. destruct E6; [left; assumption|right; lia]. }
  assert (length gs <= 9)%nat as Hgs. { unfold zlen in Hz. rewrite app_length, rev_length in Hz. cbn [length] in Hz. lia. }
  eapply safe_bind with (Q := fun '(h', _) => Forall (okc lim bq) h').
  - destruct (i_size (t_info ce) <? 0); [|exact Hok]. eapply safe_bind; [apply (drain_safe pv s i lim _ bq e x0 J wrap E1 E2 E3 E4 E5 E7 ltac:(unfold INT32_MAX; lia) fuel h Hok)|].
    + intros p st (? & ? & _ & _ & _ & P & _). pose proof (HB0 (S (length gs)) ltac:(lia)). lia.
    + pose proof (HB0 (S (length gs)) ltac:(lia)). pose proof (b_nonneg lim _ bq e x0 J E2 E3 E4 E5). lia.
    + intros (h' & size) H. exact H.
  - intros (h' & ci) Hh'. eapply safe_bind; [apply (Hnext h' (Hwi _ Hh'))|]. intros (s2 & o2) Hs2. destruct m as [|m]; [destruct Hs2|]. cbn [ends_at] in Hs2.
    eapply safe_bind; [exact Hs2|]. intros (s3 & r3) Hs3. cbn [safe]. split; [reflexivity|]. rewrite rput_at.
    pose proof (w_pos (length gs) ltac:(lia)) as Hw.
    assert (forall p c, top (length gs) (mkRF lim len p (Some (addEntry parent (T ci (t_ch ce))))) c -> c <= Z.of_nat (S m) + 1 ->
      exists phi, inv (rev gs ++ mkRF lim len p (Some (addEntry parent (T ci (t_ch ce)))) :: rest) (zlen gs) phi /\ phi <= pf ms + (Z.of_nat (S m) + 1) * w (length gs)) as Hdone.
    { intros p c Ht Hc. exists (pf ms + c * w (length gs)). split; [|nia]. eexists gs, _, rest, ms, c. split; [reflexivity|].
      split; [rewrite <- Hz; unfold zlen; rewrite !app_length; reflexivity|]. split; [reflexivity|]. split; [|split; [exact Ht|split; [reflexivity|]]].
      - destruct gs as [|g gs], ms as [|m0 ms]; cbn [chain] in *; exact Hch.
      - assert (0 <= zlen gs < zlen (rev gs ++ mkRF lim len (Found pv s i inp) (Some parent) :: rest)) as Hd by (rewrite Hz; unfold zlen; lia).
        pose proof (rooted_put _ (zlen gs) (mkRF lim len p (Some (addEntry parent (T ci (t_ch ce))))) _ Hd Hr eq_refl) as A. rewrite rput_at in A. exact A. }
    destruct r3 as [i3|].
    + destruct Hs3 as (A1 & A2). apply (Hdone _ (Z.of_nat m + 2)); [|lia]. cbn [top r_p]. exists m. split; [reflexivity|]. split; [exact A1|exact A2].
    + apply (Hdone _ 1); [reflexivity|lia].
Qed.
Lemma rooted_eq (gs : list rfr) f rest : rev (f :: gs) ++ rest = rev gs ++ f :: rest.
Proof. cbn [rev]. rewrite <- app_assoc. reflexivity. Qed.
Lemma rnext_safe rec : forall st d phi, inv st d phi -> phi < Z.of_nat rec ->
  safe True (rnext_entry cg cb cl bufsize gas alloc_ok subs lim fuel rec st d) (fun '(st', d') => rooted st' /\ (d' = -1 \/ exists phi', inv st' d' phi' /\ phi' < phi)).
Proof.
  induction rec as [|rec IH]; intros st d phi (gs & f & rest & ms & c & -> & Hz & <- & Hch & Ht & -> & Hr) Hphi.
  { assert (length gs <= 9)%nat as Hgs by (unfold zlen in Hz; rewrite app_length, rev_length in Hz; cbn [length] in Hz; lia).
    pose proof (pf_nonneg ms ltac:(rewrite (chain_len _ _ _ Hch); lia)). pose proof (w_pos (length gs) ltac:(lia)).
    assert (1 <= c) by (unfold top in Ht; destruct (r_p lim f); [destruct Ht as (m & -> & _); lia|lia]). nia. }
  assert (length gs + length rest = 9)%nat as Hgs by (unfold zlen in Hz; rewrite app_length, rev_length in Hz; cbn [length] in Hz; lia).
  pose proof (chain_len _ _ _ Hch) as Hms.
  cbn [rnext_entry]. rewrite Hz. destruct (Z.ltb_spec 10 (zlen gs + 1)) as [Q|_]; [unfold zlen in Q; lia|]. rewrite rat_at. cbn [bind].
  destruct rest as [|r rest].
  { unfold rat. rewrite zget_app. assert (zlen (rev gs) = zlen gs) as -> by (unfold zlen; rewrite rev_length; reflexivity).
    destruct (Z.ltb_spec (zlen gs + 1) (zlen gs)); [lia|]. replace (zlen gs + 1 - zlen gs) with 1 by lia. exact Logic.I. }
  cbn [length] in Hgs. assert (zlen (f :: gs) = zlen gs + 1) as Hfg by (unfold zlen; cbn [length]; lia).
  pose proof (rat_at (f :: gs) r rest) as Hrat. rewrite rooted_eq, Hfg in Hrat. rewrite Hrat. cbn [bind].
  assert (forall f', rput lim (rev gs ++ f :: r :: rest) (zlen gs + 1) f' = rev gs ++ f :: f' :: rest) as Hput.
  { intros f'. pose proof (rput_at (f :: gs) r f' rest) as A. rewrite !rooted_eq, Hfg in A. exact A. }
  assert (forall f' t, r_entry lim f' = Some t -> rooted (rev gs ++ f :: f' :: rest)) as Hroot.
  { intros f' t Hf'. rewrite <- Hput. apply (rooted_put _ _ f' t); [rewrite Hz; unfold zlen in *; lia|exact Hr|exact Hf']. }
  pose proof (w_pos (length gs) ltac:(lia)) as Hw. pose proof (w_pos (S (length gs)) ltac:(lia)) as Hw2. pose proof (w_next (length gs) ltac:(lia)) as Hw3.
  assert (forall f', zlen (rev gs ++ f :: f' :: rest) = 10) as Hz' by (intros f'; rewrite <- Hz; unfold zlen; rewrite !app_length; reflexivity).
  unfold top in Ht. destruct (r_p lim f) as [St pv s i inp|h] eqn:Ef.
  - destruct Ht as (m & -> & Hgood). pose proof Hgood as ((X & e & x0 & J & wrap & bq & E1 & E2 & E3 & E4 & E5 & E6 & E7) & Hnext).
    pose proof (entry_len_le pv s i lim _ bq e x0 J wrap E1 E2 E3 E4 E5 E7 ltac:(unfold INT32_MAX; lia) fuel) as Hlen. remember (entry_len pv s i fuel) as len eqn:El.
    eapply safe_bind; [apply (Hopen (S (length gs)))|].
    + lia.
    + exists None, (B (S (length gs))), (hI pv s i lim (B (S (length gs))) bq e x0 J len), (fun _ => 0). split; [apply (entry_openable pv s i lim _ bq e x0 J wrap E1 E2 E3 E4 E5 ltac:(unfold INT32_MAX; lia) len (proj2 Hlen) eq_refl)|].
      split; [lia|]. exists 0, Ok. apply (at0 pv s i lim _ bq e x0 J wrap E1 E2 E3 E4 E5 E7).
    + intros o Ho. rewrite !Hput. destruct o as [St' pv' s' i' inp'|h'].
      * eapply safe_impl; [apply (IH _ _ (pf (m :: ms) + (Z.of_nat k + 2) * w (S (length gs))))|tauto|].
        -- eexists (f :: gs), _, rest, (m :: ms), (Z.of_nat k + 2). split; [symmetry; apply rooted_eq|]. split; [apply Hz'|]. split; [exact Hfg|].
           split; [cbn [chain]; split; [|exact Hch]; unfold under; rewrite Ef; split; [exact Hgood|exact El]|]. split; [unfold top; cbn [r_p length]; exists k; split; [reflexivity|exact Ho]|]. split; [reflexivity|]. eapply Hroot; reflexivity.
        -- cbn [pf]. rewrite Hms. unfold K in Hw3. nia.
        -- intros (st' & d') (A1 & A2). split; [exact A1|]. destruct A2 as [A2|(phi' & A2 & A3)]; [left; exact A2|]. right. exists phi'. split; [exact A2|]. cbn [pf] in A3. rewrite Hms in A3. unfold K in Hw3. nia.
      * eapply safe_impl; [apply (add_safe gs f _ (T i []) (proj1_sig h') m ms)|tauto|].
        -- apply Hz'.
        -- eapply Hroot; reflexivity.
        -- exact Hch.
        -- rewrite Ef. split; [exact Hgood|]. rewrite <- El. exact (proj2_sig h').
        -- intros (st' & d') (-> & phi' & A & A2). split; [destruct A as (? & ? & ? & ? & ? & _ & _ & _ & _ & _ & _ & A); exact A|]. right. exists phi'. split; [exact A|]. nia.
  - subst c. destruct (Z.eqb_spec (zlen gs) 0) as [E0|E0]; cbn [negb]; [cbn [safe]; auto|]. destruct (r_entry lim f) as [ce|]; [|exact Logic.I].
    destruct gs as [|g gs]; [change (zlen (@nil rfr)) with 0 in E0; contradiction|]. destruct ms as [|m ms]; [destruct Hch|]. destruct Hch as (Hu & Hch). cbn [length] in *.
    rewrite !rooted_eq in *. replace (zlen (g :: gs) - 1) with (zlen gs) by (unfold zlen; cbn [length]; lia).
    unfold under in Hu. eapply safe_impl; [apply (add_safe gs g (f :: r :: rest) ce (proj1_sig h) m ms)|tauto|].
    + exact Hz.
    + exact Hr.
    + exact Hch.
    + destruct (r_p lim g) as [St' pv' s' i' inp'|]; [|exact Logic.I]. destruct Hu as (Hu1 & Hu2). split; [exact Hu1|]. rewrite <- Hu2. exact (proj2_sig h).
    + intros (st' & d') (-> & phi' & A & A2). split; [destruct A as (? & ? & ? & ? & ? & _ & _ & _ & _ & _ & _ & A); exact A|]. right. exists phi'. split; [exact A|]. cbn [pf]. rewrite (chain_len _ _ _ Hch). nia.
Qed.
Lemma rlist_all_safe rec calls : forall st d phi, inv st d phi -> phi < Z.of_nat rec -> phi + 1 < Z.of_nat calls -> safe True (rlist_all cg cb cl bufsize gas alloc_ok subs lim fuel calls rec st d) rooted.
Proof.
  induction calls as [|calls IH]; intros st d phi HI Hr Hc.
  { exfalso. pose proof (rnext_safe rec st d phi HI Hr). destruct HI as (gs & f & rest & ms & c & -> & Hz & <- & Hch & Ht & -> & _).
    assert (length gs <= 9)%nat as Hgs by (unfold zlen in Hz; rewrite app_length, rev_length in Hz; cbn [length] in Hz; lia).
    pose proof (pf_nonneg ms ltac:(rewrite (chain_len _ _ _ Hch); lia)). pose proof (w_pos (length gs) ltac:(lia)).
    assert (1 <= c) by (unfold top in Ht; destruct (r_p lim f); [destruct Ht as (m & -> & _); lia|lia]). nia. }
  cbn [rlist_all]. assert (0 <= d) as Hd by (destruct HI as (gs & f & rest & ms & c & _ & _ & <- & _); apply zlen_nonneg). destruct (Z.ltb_spec d 0); [lia|].
  eapply safe_bind; [apply (rnext_safe rec st d phi HI Hr)|]. intros (st' & d') (A1 & [->|(phi' & A2 & A3)]).
  - destruct calls as [|calls]; [|exact A1]. exfalso. destruct HI as (gs & f & rest & ms & c & -> & Hz & <- & Hch & Ht & -> & _).
    assert (length gs <= 9)%nat as Hgs by (unfold zlen in Hz; rewrite app_length, rev_length in Hz; cbn [length] in Hz; lia).
    pose proof (pf_nonneg ms ltac:(rewrite (chain_len _ _ _ Hch); lia)). pose proof (w_pos (length gs) ltac:(lia)).
    assert (1 <= c) by (unfold top in Ht; destruct (r_p lim f); [destruct Ht as (m & -> & _); lia|lia]). nia.
  - apply (IH st' d' phi' A2); lia.
Qed.
(** the whole listing *)
Lemma rlist_safe {P} (root : info) (par : ops P Z) p rec calls : ok_stream False (B O) par p -> (Z.of_nat k + 2) * w O < Z.of_nat rec -> (Z.of_nat k + 2) * w O + 1 < Z.of_nat calls ->
  safe True (let* (st, d) := rlist_new cg cb cl bufsize gas alloc_ok subs lim root par p in rlist_all cg cb cl bufsize gas alloc_ok subs lim fuel calls rec st d) rooted.
Proof.
  intros Hp Hr Hc. unfold rlist_new. pose proof (w_pos O ltac:(lia)) as Hw.
  eapply safe_bind with (Q := fun '(st, d) => rooted st /\ (d = -1 \/ inv st d ((Z.of_nat k + 2) * w O))).
  - eapply safe_bind; [apply (Hopen O); [lia|exact Hp]|]. intros o Ho. destruct o as [St pv s i inp|h]; cbn [safe]; [|split; [eexists; reflexivity|left; reflexivity]].
    split; [eexists; reflexivity|]. right. eexists [], _, (repeat (rframe0 lim) 9), [], (Z.of_nat k + 2). split; [reflexivity|]. split; [reflexivity|]. split; [reflexivity|]. split; [exact Logic.I|].
    split; [unfold top; cbn [r_p length]; exists k; split; [reflexivity|exact Ho]|]. split; [cbn [pf length]; lia|]. eexists; reflexivity.
  - intros (st & d) (A1 & [->|A2]).
    + destruct calls as [|calls]; [nia|exact A1].
    + apply (rlist_all_safe rec calls st d _ A2 Hr Hc).
Qed.
End Levels.
