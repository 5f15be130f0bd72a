(** Proofs for C42-C44: the reader. *)
From Coq Require Import Permutation.
From Verif Require Import Base StreamSpec ArchiveSpec M_Ar CacheSpec M_Cache P_Cpio P_Cache M_Listing ListingSpec P_Listing M_Reader ReaderSpec P_Reader1 P_Reader2 P_Reader3.

Section R.
Variable fs : list Z -> option file.
Hypothesis FS : fs_ok fs.
Variable N : nat.
Hypothesis BIG : forall u f s, fs u = Some f -> f_stream f = Some s -> (count s + 5 <= N)%nat.
Notation lip_is := (lip_is fs).

Lemma fs_good u f s : fs u = Some f -> f_stream f = Some s -> good_file f s.
Proof. intros A B. destruct FS as (_ & H). destruct (H _ _ _ A B) as (_ & C & D & _). split; assumption. Qed.
Lemma root_unique url u u' f f' s s' : file_of fs url u f s -> file_of fs url u' f' s' -> u' = u /\ f' = f /\ s' = s.
Proof.
  intros (A & B & C) (A' & B' & C').
  assert (forall a b fa sa r, fs a = Some fa -> f_stream fa = Some sa -> b = a ++ 47 :: r -> fs b = None) as K.
  { intros a b fa sa r H1 H2 ->. destruct FS as (_ & H). destruct (H _ _ _ H1 H2) as (_ & _ & _ & Hn). apply Hn. }
  assert (u' = u) as ->.
  { destruct C as [->|(r & E)], C' as [->|(r' & E')].
    - reflexivity.
    - rewrite (K u' url f' s' r' A' B' E') in A. discriminate.
    - rewrite (K u url f s r A B E) in A'. discriminate.
    - rewrite E in E'. destruct (Nat.compare_spec (length u) (length u')) as [EL|EL|EL].
      + apply (f_equal (firstn (length u))) in E'. rewrite firstn_app, Nat.sub_diag, firstn_O, app_nil_r, firstn_all in E'.
        rewrite EL in E'. rewrite firstn_app, Nat.sub_diag, firstn_O, app_nil_r, firstn_all in E'. congruence.
      + exfalso. assert (exists w, u' = u ++ 47 :: w) as (w & Ew).
        { clear -E' EL. revert u' E' EL. induction u as [|x u IH]; intros [|y u'] E' EL; cbn in EL; try lia.
          - cbn in E'. injection E' as <- _. eexists. reflexivity.
          - cbn in E'. injection E' as <- E'. destruct (IH u' E' ltac:(lia)) as (w & ->). exists w. reflexivity. }
        rewrite (K u u' f s w A B Ew) in A'. discriminate.
      + exfalso. assert (exists w, u = u' ++ 47 :: w) as (w & Ew).
        { clear -E' EL. symmetry in E'. revert u E' EL. induction u' as [|x u' IH]; intros [|y u] E' EL; cbn in EL; try lia.
          - cbn in E'. injection E' as <- _. eexists. reflexivity.
          - cbn in E'. injection E' as <- E'. destruct (IH u E' ltac:(lia)) as (w & ->). exists w. reflexivity. }
        rewrite (K u' u f' s' w A' B' Ew) in A. discriminate. }
  rewrite A in A'. injection A' as <-. rewrite B in B'. injection B' as <-. auto.
Qed.
Definition full (f : file) (s : stream) : tree := added (T (phys f) []) (ents s).
Lemma phys_mtime f : i_mtime (phys f) = i_mtime (f_info f) /\ i_name (phys f) = i_name (f_info f) /\ i_size (phys f) = i_size (f_info f).
Proof. unfold phys. destruct (f_stream f) as [[|]|]; auto. Qed.

(** ** the invariant *)
Definition lips_ok (ls : list lip) : Prop := forall k l, nth_error ls k = Some l -> exists f s t m, lip_is l f s t m /\ (m <= count s + 2)%nat.
Definition lstep (ls ls' : list lip) : Prop := forall k l, nth_error ls k = Some l ->
  exists l', nth_error ls' k = Some l' /\ lp_url l' = lp_url l /\ (lp_root l = true -> lp_root l' = lp_root l) /\ (lp_depth l < 0 -> lp_depth l' < 0) /\
    forall t, list_root (lp_st l) = Some t -> exists t', list_root (lp_st l') = Some t' /\ ext t t'.
(** the same without the third part: dirEntries may move the tree of a finished listing to the cache *)
Definition wstep (ls ls' : list lip) : Prop := forall k l, nth_error ls k = Some l ->
  exists l', nth_error ls' k = Some l' /\ lp_url l' = lp_url l /\ (lp_depth l < 0 -> lp_depth l' < 0) /\
    forall t, list_root (lp_st l) = Some t -> exists t', list_root (lp_st l') = Some t' /\ ext t t'.
Lemma lstep_weak ls ls' : lstep ls ls' -> wstep ls ls'.
Proof. intros S k l H. destruct (S k l H) as (l' & A & B & _ & C & D). exists l'. auto. Qed.
Lemma wstep_trans a b c : wstep a b -> wstep b c -> wstep a c.
Proof.
  intros S T k l H. destruct (S k l H) as (l1 & A & B & C & D). destruct (T k l1 A) as (l2 & A2 & B2 & C2 & D2). exists l2. split; [exact A2|]. split; [congruence|]. split; [auto|].
  intros t Ht. destruct (D t Ht) as (t1 & H1 & E1). destruct (D2 t1 H1) as (t2 & H2 & E2). exists t2. split; [exact H2|]. eapply ext_trans; eassumption.
Qed.
Definition prog_ok (ls : list lip) (m : list (list Z * nat)) : Prop := NoDup (map fst m) /\
  forall u k, In (u, k) m -> exists l, nth_error ls k = Some l /\ lp_url l = u /\ lp_root l = true.
Definition cache_ok (ls : list lip) (m : list (list Z * nat)) : Prop :=
  forall u k, In (u, k) m -> exists l, nth_error ls k = Some l /\ lp_url l = u /\ lp_depth l < 0.
(** a lister that has returned [ret]; [fin]: it has returned false *)
Definition dl_is (ls : list lip) (d : dl) (ret : list info) (fin : bool) : Prop :=
  match dl_lip d with
  | None => dir_listing fs (dl_url d) (dl_list d) /\ exists rest, dl_list d = ret ++ rest /\ (if fin then dl_pos d = -1 /\ rest = [] else dl_pos d = zlen ret)
  | Some k => exists l f s t, nth_error ls k = Some l /\ fs (lp_url l) = Some f /\ f_stream f = Some s /\ list_root (lp_st l) = Some t /\ root_of (lp_url l) (dl_url d) /\
      if fin then dl_pos d = -1 /\ complete (listed_root (f_info f) s) (below (lp_url l) (dl_url d)) ret
      else match dl_node d with
           | None => dl_pos d = 0 /\ ret = [] /\ dl_done d = []
           | Some p => p = dir_path (below (lp_url l) (dl_url d)) /\ dl_pos d = zlen ret /\ map i_name ret = rev (dl_done d) /\ NoDup (dl_done d) /\
               exists x, tfind t p = Some x /\ forall i, In i ret -> exists y, In (i_name i, y) (t_ch x) /\ t_info y = i
           end
  end.
Lemma nth_upd {A} (l : list A) k a j : nth_error (upd l k a) j = if (j =? k)%nat then match nth_error l k with Some _ => Some a | None => None end else nth_error l j.
Proof.
  revert k j. induction l as [|x l IH]; intros [|k] [|j]; cbn; try reflexivity.
  - destruct (j =? k)%nat; reflexivity.
  - apply IH.
Qed.
Lemma upd_length {A} (l : list A) k a : length (upd l k a) = length l.
Proof. revert k. induction l as [|x l IH]; intros [|k]; cbn; [reflexivity..|]. rewrite IH. reflexivity. Qed.
Lemma lstep_refl ls : lstep ls ls.
Proof. intros k l H. exists l. split; [exact H|]. split; [reflexivity|]. split; [auto|]. split; [auto|]. intros t Ht. exists t. split; [exact Ht|apply ext_refl]. Qed.
Lemma lstep_upd ls k l l' : nth_error ls k = Some l -> lp_url l' = lp_url l -> (lp_root l = true -> lp_root l' = true) -> (lp_depth l < 0 -> lp_depth l' < 0) ->
  (forall t, list_root (lp_st l) = Some t -> exists t', list_root (lp_st l') = Some t' /\ ext t t') -> lstep ls (upd ls k l').
Proof.
  intros H U R D X j lj Hj. rewrite nth_upd. destruct (Nat.eqb_spec j k) as [->|Nk].
  - rewrite H in *. injection Hj as <-. exists l'. split; [reflexivity|]. split; [exact U|]. split; [intros E; rewrite (R E); congruence|]. split; [exact D|exact X].
  - exists lj. split; [exact Hj|]. split; [reflexivity|]. split; [auto|]. split; [auto|]. intros t Ht. exists t. split; [exact Ht|apply ext_refl].
Qed.
Lemma lips_upd ls k l f s t m : lips_ok ls -> lip_is l f s t m -> (m <= count s + 2)%nat -> lips_ok (upd ls k l).
Proof.
  intros H LI Hm j lj Hj. rewrite nth_upd in Hj. destruct (j =? k)%nat; [|exact (H j lj Hj)]. destruct (nth_error ls k); [|discriminate]. injection Hj as <-.
  exists f, s, t, m. split; assumption.
Qed.
Lemma cache_step ls ls' m : wstep ls ls' -> cache_ok ls m -> cache_ok ls' m.
Proof. intros S C u k I. destruct (C u k I) as (l & H & U & D). destruct (S k l H) as (l' & H' & U' & D' & _). exists l'. split; [exact H'|]. split; [congruence|auto]. Qed.
Lemma prog_step ls ls' m : lstep ls ls' -> prog_ok ls m -> prog_ok ls' m.
Proof. intros S (ND & C). split; [exact ND|]. intros u k I. destruct (C u k I) as (l & H & U & D). destruct (S k l H) as (l' & H' & U' & R' & _). exists l'. split; [exact H'|]. split; [congruence|]. rewrite (R' D). exact D. Qed.
Lemma lips_at ls k l f s t : lips_ok ls -> nth_error ls k = Some l -> fs (lp_url l) = Some f -> f_stream f = Some s -> list_root (lp_st l) = Some t ->
  exists m, lip_is l f s t m /\ (m <= count s + 2)%nat.
Proof.
  intros H Hk A B C. destruct (H k l Hk) as (f' & s' & t' & m & LI & Hm).
  assert (f' = f) as -> by (pose proof (li_fs _ _ _ _ _ _ LI); congruence). assert (s' = s) as -> by (pose proof (li_s _ _ _ _ _ _ LI); congruence).
  assert (t' = t) as -> by (pose proof (li_root _ _ _ _ _ _ LI); congruence). exists m. auto.
Qed.
Lemma dl_step ls ls' d ret fin : lips_ok ls -> wstep ls ls' -> dl_is ls d ret fin -> dl_is ls' d ret fin.
Proof.
  intros LO S. unfold dl_is. destruct (dl_lip d) as [k|]; [|auto]. intros (l & f & s & t & H & A & B & C & R & D).
  destruct (S k l H) as (l' & H' & U' & _ & X). destruct (X t C) as (t' & C' & X'). exists l', f, s, t'. rewrite U'.
  split; [exact H'|]. split; [exact A|]. split; [exact B|]. split; [exact C'|]. split; [exact R|]. destruct fin; [exact D|].
  destruct (dl_node d) as [p|]; [|exact D]. destruct D as (D1 & D2 & D3 & D4 & x & F & D5). split; [exact D1|]. split; [exact D2|]. split; [exact D3|]. split; [exact D4|].
  destruct (lips_at _ _ _ _ _ _ LO H A B C) as (m & LI & _). destruct (ext_node _ _ _ _ _ X' (lip_wf _ _ _ _ _ _ LI) F) as (x' & F' & G).
  exists x'. split; [exact F'|]. intros i I. destruct (D5 i I) as (y & Iy & Ey). destruct (G _ _ Iy) as (y' & Iy' & Ey'). exists y'. split; [exact Iy'|congruence].
Qed.
Lemma nodup_app_l {A} (a b : list A) : NoDup (a ++ b) -> NoDup a.
Proof. induction a as [|x a IH]; intros H; [constructor|]. cbn in H. inversion H as [|? ? H1 H2]; subst. constructor; [intros I; apply H1; apply in_or_app; left; exact I|apply IH; exact H2]. Qed.
(** the entries returned so far are entries of the directory *)
Lemma ext_full l f s t m : lip_is l f s t m -> ext t (full f s).
Proof.
  intros LI. destruct (li_pre _ _ _ _ _ _ LI) as (pre & rest & E & -> & _). destruct (fs_good _ _ _ (li_fs _ _ _ _ _ _ LI) (li_s _ _ _ _ _ _ LI)) as (_ & FP).
  unfold full. rewrite E. apply (ext_added _ _ _ FP rest pre []). rewrite app_nil_r. exact E.
Qed.
Lemma nodup_rev {A} (l : list A) : NoDup l -> NoDup (rev l).
Proof. intros H. apply (Permutation_NoDup (Permutation_rev l) H). Qed.
Lemma dl_sound ls d ret fin : lips_ok ls -> dl_is ls d ret fin ->
  NoDup (map i_name ret) /\ (forall u f s, file_of fs (dl_url d) u f s -> forall i, In i ret -> child (listed_root (f_info f) s) (below u (dl_url d)) i) /\
  ((forall u f s, ~ file_of fs (dl_url d) u f s) -> ret = []).
Proof.
  intros LO. unfold dl_is. destruct (dl_lip d) as [k|].
  - intros (l & f & s & t & H & A & B & C & R & D). assert (file_of fs (dl_url d) (lp_url l) f s) as FO by (split; [exact A|split; assumption]).
    assert (forall (P : list Z -> file -> stream -> Prop), P (lp_url l) f s -> forall u f' s', file_of fs (dl_url d) u f' s' -> P u f' s') as UQ.
    { intros P HP u f' s' FO'. destruct (root_unique _ _ _ _ _ _ _ FO FO') as (-> & -> & ->). exact HP. }
    destruct fin.
    + destruct D as (_ & (ND & CI)). split; [exact ND|]. split; [|intros NF; exfalso; exact (NF _ _ _ FO)].
      apply (UQ (fun u f s => forall i, In i ret -> child (listed_root (f_info f) s) (below u (dl_url d)) i)). intros i I. apply CI. exact I.
    + destruct (dl_node d) as [p|].
      * destruct D as (D1 & D2 & D3 & D4 & x & F & D5). split; [rewrite D3; apply nodup_rev; exact D4|]. split; [|intros NF; exfalso; exact (NF _ _ _ FO)].
        apply (UQ (fun u f s => forall i, In i ret -> child (listed_root (f_info f) s) (below u (dl_url d)) i)). intros i I.
        destruct (lips_at _ _ _ _ _ _ LO H A B C) as (m & LI & _). destruct (ext_node _ _ _ _ _ (ext_full _ _ _ _ _ LI) (lip_wf _ _ _ _ _ _ LI) F) as (x' & F' & G).
        subst p. apply (child_iff (f_info f) (phys f) s _ x' F'). destruct (D5 i I) as (y & Iy & Ey). destruct (G _ _ Iy) as (y' & Iy' & Ey').
        unfold infos. apply in_map_iff. exists (i_name i, y'). split; [cbn [snd]; congruence|exact Iy'].
      * destruct D as (_ & -> & _). split; [constructor|]. split; [intros u f' s' _ i []|reflexivity].
  - intros (DL & rest & E & D). destruct DL as [(u & f & s & FO & ND & CI)|(NF & EL)].
    + rewrite E, map_app in ND. split; [exact (nodup_app_l _ _ ND)|]. split; [|intros NF; exfalso; exact (NF _ _ _ FO)].
      intros u' f' s' FO' i I. destruct (root_unique _ _ _ _ _ _ _ FO FO') as (-> & -> & ->). apply CI. rewrite E. apply in_or_app. left. exact I.
    + rewrite EL in E. destruct ret; [|discriminate]. split; [constructor|]. split; [intros u f s _ i []|reflexivity].
Qed.
Lemma child_count f s dir ret : NoDup (map i_name ret) -> (forall i, In i ret -> child (listed_root (f_info f) s) dir i) -> (length ret <= count s)%nat.
Proof.
  intros ND H.
  assert (cnt_l (ents s) = count s) as EC by (destruct s; [reflexivity|rewrite count_arch; reflexivity]). rewrite <- EC.
  destruct ret as [|i0 ret0] eqn:ER; [cbn; lia|]. rewrite <- ER in *.
  destruct (tfind (full f s) (dir_path dir)) as [x|] eqn:F.
  - destruct (wf_tree (phys f) (ents s) _ _ F) as (A & B & _). rewrite <- (map_length i_name).
    etransitivity; [apply (NoDup_incl_length ND (l' := map i_name (infos (t_ch x))))|unfold infos; rewrite !map_length; exact B].
    intros n I. apply in_map_iff in I. destruct I as (i & <- & I). apply in_map. apply (child_iff (f_info f) (phys f) s dir x F). apply H. exact I.
  - exfalso. destruct (complete_none (f_info f) (phys f) s dir F) as (_ & C). apply (C i0). apply H. rewrite ER. left. reflexivity.
Qed.

(** ** nextEntry of a lister *)
Lemma dl_take_ok l f s t m d p x ret : lip_is l f s t m -> tfind t p = Some x -> NoDup (dl_done d) -> map i_name ret = rev (dl_done d) -> dl_pos d = zlen ret ->
  (forall i, In i ret -> exists y, In (i_name i, y) (t_ch x) /\ t_info y = i) -> zlen ret < zlen (t_ch x) ->
  exists k i, dl_take l d p = Ret (mkDl (zlen ret + 1) (dl_list d) (dl_lip d) (Some p) (k :: dl_done d) (dl_url d), i) /\
    NoDup (k :: dl_done d) /\ map i_name (ret ++ [i]) = rev (k :: dl_done d) /\ (forall j, In j (ret ++ [i]) -> exists y, In (i_name j, y) (t_ch x) /\ t_info y = j).
Proof.
  intros LI F ND Nm Ps H L. destruct (lip_wf _ _ _ _ _ _ LI _ _ F) as (A & _ & C). unfold dl_take. rewrite (lip_node_ok _ _ _ _ _ _ _ _ LI F). cbn [bind].
  assert (length (dl_done d) = length ret) as LD by (rewrite <- (rev_length (dl_done d)), <- Nm, map_length; reflexivity).
  destruct (pick_ok (in_order (t_ch x)) (dl_done d) ND) as (k & y & P & I & NI).
  { rewrite (Permutation_length (in_order_perm (t_ch x))). unfold zlen in L. lia. }
  { apply (Permutation_NoDup (l := map fst (t_ch x))); [apply Permutation_map, Permutation_sym, in_order_perm|exact A]. }
  assert (In (k, y) (t_ch x)) as I' by (apply (Permutation_in _ (in_order_perm (t_ch x))); exact I). destruct (C _ _ I') as (_ & Nk).
  rewrite P. cbn [bind]. rewrite Ps. exists k, (t_info y). split; [reflexivity|]. split; [constructor; assumption|]. split.
  - rewrite map_app, Nm. cbn [map rev]. rewrite Nk. reflexivity.
  - intros j Ij. apply in_app_or in Ij. destruct Ij as [Ij|[<-|[]]]; [exact (H j Ij)|]. exists y. rewrite Nk. auto.
Qed.
(** all the entries are there *)
Lemma all_returned l f s t m dir x ret done : lip_is l f s t m -> lp_depth l < 0 -> tfind t (dir_path dir) = Some x -> NoDup done -> map i_name ret = rev done ->
  (forall i, In i ret -> exists y, In (i_name i, y) (t_ch x) /\ t_info y = i) -> zlen (t_ch x) <= zlen ret -> complete (listed_root (f_info f) s) dir ret.
Proof.
  intros LI D F ND Nm H L. rewrite (lip_full _ _ _ _ _ _ LI D) in F. destruct (wf_tree (phys f) (ents s) _ _ F) as (A & _ & C).
  assert (NoDup (map i_name ret)) as NR by (rewrite Nm; apply nodup_rev; exact ND). split; [exact NR|].
  intros i. rewrite (child_iff (f_info f) (phys f) s dir x F). unfold infos. rewrite in_map_iff. split.
  - intros I. destruct (H i I) as (y & Iy & Ey). exists (i_name i, y). auto.
  - intros ((c & y) & Ey & Iy). cbn [snd] in Ey. destruct (C _ _ Iy) as (_ & Nc).
    assert (incl (map i_name ret) (map fst (t_ch x))) as IN.
    { intros n In_. apply in_map_iff in In_. destruct In_ as (j & <- & Ij). destruct (H j Ij) as (y' & Iy' & _). apply (in_map fst) in Iy'. exact Iy'. }
    assert (In c (map i_name ret)) as IC.
    { apply (@NoDup_length_incl _ (map i_name ret) (map fst (t_ch x)) NR); [rewrite !map_length; unfold zlen in L; lia|exact IN|]. apply (in_map fst) in Iy. exact Iy. }
    apply in_map_iff in IC. destruct IC as (j & Ej & Ij). destruct (H j Ij) as (y' & Iy' & Ey'). rewrite Ej in Iy'.
    pose proof (get_nodup _ _ _ A Iy) as G1. pose proof (get_nodup _ _ _ A Iy') as G2. assert (y' = y) by congruence. congruence.
Qed.
(** the lister can be asked: it has been asked before, or its listing still has its tree *)
Definition ready (ls : list lip) (d : dl) : Prop := forall k l, dl_lip d = Some k -> dl_node d = None -> dl_pos d = 0 -> nth_error ls k = Some l -> lp_root l = true.
Lemma dl_next_ok ls d ret fin : lips_ok ls -> dl_is ls d ret fin -> ready ls d ->
  exists ls' d' o, dl_next N ls d = Ret (ls', d', o) /\ lips_ok ls' /\ lstep ls ls' /\ dl_url d' = dl_url d /\ (forall ls2, ready ls2 d') /\
    match o with Some i => fin = false /\ dl_is ls' d' (ret ++ [i]) false | None => dl_is ls' d' ret true end.
Proof.
  intros LO. unfold dl_is at 1, dl_next, ready at 1. destruct (dl_lip d) as [k|] eqn:EK.
  - intros (l & f & s & t & H & A & B & C & R & D) RD. destruct fin.
    + destruct D as (D1 & D2). rewrite D1. change (-1 <? 0) with true. eexists ls, (dl_end d), None. split; [reflexivity|]. split; [exact LO|]. split; [apply lstep_refl|]. split; [reflexivity|].
      split; [intros ls2 k' l' _ _ C0; cbn in C0; discriminate|]. unfold dl_is, dl_end. cbn [dl_lip dl_pos dl_url dl_node dl_done]. try rewrite EK. exists l, f, s, t.
      split; [exact H|]. split; [exact A|]. split; [exact B|]. split; [exact C|]. split; [exact R|]. split; [reflexivity|exact D2].
    + pose proof (fs_good _ _ _ A B) as GF. pose proof (BIG _ _ _ A B) as BG. destruct (lips_at _ _ _ _ _ _ LO H A B C) as (m & LI & Hm). unfold at_lip.
      destruct (dl_node d) as [p|] eqn:EN.
      * destruct D as (-> & D2 & D3 & D4 & x & F & D5). set (p := dir_path (below (lp_url l) (dl_url d))) in *.
        rewrite D2. pose proof (zlen_nonneg ret). destruct (Z.ltb_spec (zlen ret) 0); [lia|]. rewrite H. cbn [bind]. rewrite (lip_node_ok _ _ _ _ _ _ _ _ LI F). cbn [bind].
        destruct (Z.ltb_spec (zlen ret) (zlen (t_ch x))) as [Lx|Lx].
        -- destruct (dl_take_ok _ _ _ _ _ d p x ret LI F D4 D3 D2 D5 Lx) as (kk & i & E & T1 & T2 & T3). rewrite E. cbn [bind].
           eexists ls, _, (Some i). split; [reflexivity|]. split; [exact LO|]. split; [apply lstep_refl|]. split; [reflexivity|]. split; [intros ls2 k' l' _ C0; discriminate|].
           split; [reflexivity|]. unfold dl_is. cbn [dl_lip dl_pos dl_url dl_node dl_done]. try rewrite EK. exists l, f, s, t.
           split; [exact H|]. split; [exact A|]. split; [exact B|]. split; [exact C|]. split; [exact R|]. split; [reflexivity|]. split; [rewrite zlen_app; reflexivity|]. split; [exact T2|]. split; [exact T1|].
           exists x. split; [exact F|exact T3].
        -- assert (zlen ret = zlen (t_ch x)) as EQ.
           { apply Z.le_antisymm; [|exact Lx]. assert (NoDup (map i_name ret)) as NR by (rewrite D3; apply nodup_rev; exact D4).
             assert (incl (map i_name ret) (map fst (t_ch x))) as IN.
             { intros n In_. apply in_map_iff in In_. destruct In_ as (j & <- & Ij). destruct (D5 j Ij) as (y' & Iy' & _). apply (in_map fst) in Iy'. exact Iy'. }
             pose proof (NoDup_incl_length NR IN) as LL. rewrite !map_length in LL. unfold zlen. lia. }
           destruct (next_node_ok fs N l f s t m p x GF LI ltac:(lia) F) as (l' & t' & x' & m' & E1 & LI1 & U1 & R1 & M1 & X1 & F1 & G1 & DD1 & O1).
           rewrite E1. cbn [bind]. assert (lips_ok (upd ls k l')) as LO' by (eapply lips_upd; [exact LO|exact LI1|lia]).
           assert (lstep ls (upd ls k l')) as LS.
           { apply (lstep_upd ls k l l' H U1); [congruence| |].
             - exact O1.
             - intros t2 Ht2. assert (t2 = t) by congruence. subst t2. exists t'. split; [exact (li_root _ _ _ _ _ _ LI1)|exact X1]. }
           assert (nth_error (upd ls k l') k = Some l') as H' by (rewrite nth_upd, Nat.eqb_refl, H; reflexivity).
           assert (forall i, In i ret -> exists y, In (i_name i, y) (t_ch x') /\ t_info y = i) as D5'.
           { intros i I. destruct (D5 i I) as (y & Iy & Ey). destruct (G1 _ _ Iy) as (y' & Iy' & Ey'). exists y'. split; [exact Iy'|congruence]. }
           destruct (Z.ltb_spec (zlen (t_ch x)) (zlen (t_ch x'))) as [Lg|Lg].
           ++ destruct (dl_take_ok _ _ _ _ _ d p x' ret LI1 F1 D4 D3 D2 D5' ltac:(lia)) as (kk & i & E & T1 & T2 & T3). rewrite E. cbn [bind].
              eexists _, _, (Some i). split; [reflexivity|]. split; [exact LO'|]. split; [exact LS|]. split; [reflexivity|]. split; [intros ls2 k' l2 _ C0; discriminate|].
              split; [reflexivity|]. unfold dl_is. cbn [dl_lip dl_pos dl_url dl_node dl_done]. try rewrite EK. exists l', f, s, t'. rewrite U1.
              split; [exact H'|]. split; [exact A|]. split; [exact B|]. split; [exact (li_root _ _ _ _ _ _ LI1)|]. split; [exact R|]. split; [reflexivity|]. split; [rewrite zlen_app; reflexivity|]. split; [exact T2|]. split; [exact T1|].
              exists x'. split; [exact F1|exact T3].
           ++ eexists _, _, None. split; [reflexivity|]. split; [exact LO'|]. split; [exact LS|]. split; [reflexivity|]. split; [intros ls2 k' l2 _ _ C0; cbn in C0; discriminate|].
              unfold dl_is, dl_end. cbn [dl_lip dl_pos dl_url dl_node dl_done]. try rewrite EK. exists l', f, s, t'. rewrite U1.
              split; [exact H'|]. split; [exact A|]. split; [exact B|]. split; [exact (li_root _ _ _ _ _ _ LI1)|]. split; [exact R|]. split; [reflexivity|].
              eapply all_returned; [exact LI1|apply DD1; lia|exact F1|exact D4|exact D3|exact D5'|lia].
      * destruct D as (D1 & -> & D3). rewrite D1. change (0 <? 0) with false. rewrite H. cbn [bind].
        destruct (next_url_ok fs N l f s t m (dl_url d) GF LI (RD k l eq_refl eq_refl D1 H) ltac:(lia) R) as (l' & t' & m' & e & E1 & LI1 & U1 & R1 & M1 & X1 & O1 & HE).
        rewrite E1. cbn [bind]. assert (lips_ok (upd ls k l')) as LO' by (eapply lips_upd; [exact LO|exact LI1|lia]).
        assert (lstep ls (upd ls k l')) as LS.
        { apply (lstep_upd ls k l l' H U1); [congruence| |].
          - exact O1.
          - intros t2 Ht2. assert (t2 = t) by congruence. subst t2. exists t'. split; [exact (li_root _ _ _ _ _ _ LI1)|exact X1]. }
        assert (nth_error (upd ls k l') k = Some l') as H' by (rewrite nth_upd, Nat.eqb_refl, H; reflexivity).
        destruct e as [p|].
        -- destruct HE as (-> & x & F & Hx). set (p := dir_path (below (lp_url l) (dl_url d))) in *. rewrite (lip_node_ok _ _ _ _ _ _ _ _ LI1 F). cbn [bind].
           destruct (Z.eqb_spec (zlen (t_ch x)) 0) as [Z0|Z0].
           ++ eexists _, _, None. split; [reflexivity|]. split; [exact LO'|]. split; [exact LS|]. split; [reflexivity|]. split; [intros ls2 k' l2 _ _ C0; cbn in C0; discriminate|].
              assert (t_ch x = []) as Ex by (destruct (t_ch x) as [|a b]; [reflexivity|]; rewrite zlen_cons in Z0; pose proof (zlen_nonneg b); lia).
              unfold dl_is, dl_end. cbn [dl_lip dl_pos dl_url dl_node dl_done]. try rewrite EK. exists l', f, s, t'. rewrite U1.
              split; [exact H'|]. split; [exact A|]. split; [exact B|]. split; [exact (li_root _ _ _ _ _ _ LI1)|]. split; [exact R|]. split; [reflexivity|].
              eapply (all_returned _ _ _ _ _ _ x [] []); [exact LI1|apply Hx; exact Ex|exact F|constructor|reflexivity|intros i []|]. rewrite Ex. apply Z.le_refl.
           ++ pose proof (zlen_nonneg (t_ch x)). destruct (dl_take_ok _ _ _ _ _ d p x [] LI1 F) as (kk & i & E & T1 & T2 & T3); [rewrite D3; constructor|rewrite D3; reflexivity|exact D1|intros i []|change (zlen (@nil info)) with 0; lia|].
              rewrite E. cbn [bind]. eexists _, _, (Some i). split; [reflexivity|]. split; [exact LO'|]. split; [exact LS|]. split; [reflexivity|]. split; [intros ls2 k' l2 _ C0; discriminate|].
              split; [reflexivity|]. unfold dl_is. cbn [dl_lip dl_pos dl_url dl_node dl_done app]. try rewrite EK. exists l', f, s, t'. rewrite U1.
              split; [exact H'|]. split; [exact A|]. split; [exact B|]. split; [exact (li_root _ _ _ _ _ _ LI1)|]. split; [exact R|]. split; [reflexivity|]. split; [reflexivity|]. split; [exact T2|]. split; [exact T1|].
              exists x. split; [exact F|exact T3].
        -- destruct HE as (Dl & HE). eexists _, _, None. split; [reflexivity|]. split; [exact LO'|]. split; [exact LS|]. split; [reflexivity|]. split; [intros ls2 k' l2 _ _ C0; cbn in C0; discriminate|].
           unfold dl_is, dl_end. cbn [dl_lip dl_pos dl_url dl_node dl_done]. try rewrite EK. exists l', f, s, t'. rewrite U1.
           split; [exact H'|]. split; [exact A|]. split; [exact B|]. split; [exact (li_root _ _ _ _ _ _ LI1)|]. split; [exact R|]. split; [reflexivity|].
           destruct (tfind t' (dir_path (below (lp_url l) (dl_url d)))) as [x|] eqn:F.
           ++ eapply (all_returned _ _ _ _ _ _ x [] []); [exact LI1|exact Dl|exact F|constructor|reflexivity|intros i []|]. rewrite HE. apply Z.le_refl.
           ++ rewrite (lip_full _ _ _ _ _ _ LI1 Dl) in F. exact (complete_none _ _ _ _ F).
  - intros (DL & rest & E & D) _. destruct fin.
    + destruct D as (D1 & D2). rewrite D1. change (-1 <? 0) with true. cbn [orb]. eexists ls, _, None. split; [reflexivity|]. split; [exact LO|]. split; [apply lstep_refl|]. split; [reflexivity|].
      split; [intros ls2 k' l' C0; cbn in C0; congruence|]. unfold dl_is, dl_end. cbn [dl_lip dl_pos dl_url dl_node dl_done dl_list]. try rewrite EK. split; [exact DL|]. exists rest. auto.
    + rewrite D. pose proof (zlen_nonneg ret). destruct (Z.ltb_spec (zlen ret) 0); [lia|]. cbn [orb].
      destruct (Z.leb_spec (zlen (dl_list d)) (zlen ret)) as [L|L].
      * eexists ls, _, None. split; [reflexivity|]. split; [exact LO|]. split; [apply lstep_refl|]. split; [reflexivity|].
        split; [intros ls2 k' l' C0; cbn in C0; congruence|]. unfold dl_is, dl_end. cbn [dl_lip dl_pos dl_url dl_node dl_done dl_list]. try rewrite EK. split; [exact DL|]. exists rest. split; [exact E|]. split; [reflexivity|].
        rewrite E, zlen_app in L. destruct rest as [|a rest]; [reflexivity|]. rewrite zlen_cons in L. pose proof (zlen_nonneg rest). lia.
      * destruct rest as [|i rest]; [rewrite E, app_nil_r in L; lia|]. rewrite E. 
        assert (zget (ret ++ i :: rest) (zlen ret) = Some i) as G.
        { rewrite zget_app. destruct (Z.ltb_spec (zlen ret) (zlen ret)); [lia|]. rewrite Z.sub_diag. reflexivity. }
        rewrite G. eexists ls, _, (Some i). split; [reflexivity|]. split; [exact LO|]. split; [apply lstep_refl|]. split; [reflexivity|].
        split; [intros ls2 k' l' C0; cbn in C0; congruence|]. split; [reflexivity|]. unfold dl_is. cbn [dl_lip dl_pos dl_url dl_node dl_done dl_list]. rewrite <- E. split; [exact DL|].
        exists rest. rewrite <- app_assoc. split; [exact E|]. rewrite zlen_app. reflexivity.
Qed.
End R.
