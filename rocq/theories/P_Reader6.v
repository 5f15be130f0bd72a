(** Proofs for C42-C44: stat, isArchive, canHandle, and whole programs. *)
From Coq Require Import Permutation.
From Verif Require Import Base StreamSpec ArchiveSpec M_Ar CacheSpec M_Cache P_Cpio P_Cache M_Listing ListingSpec P_Listing M_Reader ReaderSpec P_Reader1 P_Reader2 P_Reader3 P_Reader4 P_Reader5 P_Reader7.

Section R.
Variable fs : list Z -> option file.
Hypothesis FS : fs_ok fs.
Variable N : nat.
Hypothesis BIG : forall u f s, fs u = Some f -> f_stream f = Some s -> (count s + 5 <= N)%nat.
Hypothesis N0 : (0 < N)%nat.
Notation lip_is := (lip_is fs).
Notation lips_ok := (lips_ok fs).
Notation dl_is := (dl_is fs).
Notation RI := (RI fs).

Lemma dl_complete ls d ret : dl_is ls d ret true -> dir_listing fs (dl_url d) ret.
Proof.
  unfold P_Reader4.dl_is. destruct (dl_lip d) as [k|].
  - intros (l & f & s & t & H & A & B & C & R & _ & D). left. exists (lp_url l), f, s. split; [split; [exact A|split; assumption]|exact D].
  - intros (D & rest & E & _ & ->). rewrite app_nil_r in E. rewrite <- E. exact D.
Qed.
Lemma file_dec url : (exists u f s, file_of fs url u f s) \/ (forall u f s, ~ file_of fs url u f s).
Proof. pose proof (cullName_ok fs FS url) as H. destruct (snd (cullName fs url)) as [(u & s)|]; [left; destruct H as (f & H); eauto|right; exact H]. Qed.
Lemma not_ready ls d : ready ls d \/ forall ret, dl_is ls d ret false -> dl_next N ls d = UB.
Proof.
  destruct (dl_lip d) as [k|] eqn:EK; [|left; intros k l C; congruence]. destruct (dl_node d) as [p|] eqn:EN; [left; intros k' l _ C; congruence|].
  destruct (nth_error ls k) as [l|] eqn:H; [|left; intros k' l E _ _ H'; congruence]. destruct (lp_root l) eqn:ER; [left; intros k' l' E _ _ H'; congruence|].
  destruct (Z.eq_dec (dl_pos d) 0) as [P0|P0]; [|left; intros k' l' _ _ C; congruence].
  right. intros ret _. unfold dl_next. rewrite EK, EN, P0. change (0 <? 0) with false. unfold at_lip. rewrite H. cbn [bind]. unfold lip_next_url, lip_root. rewrite ER. reflexivity.
Qed.
Lemma fin_ready ls d ret : dl_is ls d ret true -> ready ls d.
Proof.
  unfold P_Reader4.dl_is, ready. destruct (dl_lip d) as [k|]; [|intros _ k l C; discriminate]. intros (l & f & s & t & _ & _ & _ & _ & _ & C & _) k' l' _ _ C'. lia.
Qed.
Lemma stat_loop_ok name M : forall ls d ret, lips_ok ls -> dl_is ls d ret false -> ready ls d -> (0 < M)%nat ->
  (forall u f s, file_of fs (dl_url d) u f s -> (count s + 2 <= M + length ret)%nat) -> (forall i, In i ret -> i_name i <> name) ->
  exists ls' o, stat_loop N M ls d name = Ret (ls', o) /\ lips_ok ls' /\ lstep ls ls' /\
    match o with
    | Some i => i_name i = name /\ exists u f s, file_of fs (dl_url d) u f s /\ child (listed_root (f_info f) s) (below u (dl_url d)) i
    | None => forall u f s i, file_of fs (dl_url d) u f s -> child (listed_root (f_info f) s) (below u (dl_url d)) i -> i_name i <> name
    end.
Proof.
  induction M as [|M IH]; intros ls d ret LO DI RD HM B NN; [lia|]. cbn [stat_loop].
  destruct (dl_next_ok fs FS N BIG ls d ret false LO DI RD) as (ls1 & d1 & o & E & LO1 & S1 & U1 & RD1 & HO). rewrite E. cbn [bind]. destruct o as [i|].
  - destruct HO as (_ & HO). destruct (dl_sound fs FS _ _ _ _ LO1 HO) as (ND & HC & HN). rewrite U1 in HC, HN.
    destruct (file_dec (dl_url d)) as [(u & f & s & FO)|NF]; [|specialize (HN NF); destruct ret; discriminate].
    destruct (list_eqb_spec (i_name i) name) as [Ei|Ni].
    + eexists ls1, (Some i). split; [reflexivity|]. split; [exact LO1|]. split; [exact S1|]. split; [exact Ei|]. exists u, f, s. split; [exact FO|]. apply (HC _ _ _ FO). apply in_or_app. right. left. reflexivity.
    + pose proof (child_count f s _ _ ND (HC _ _ _ FO)) as CC. pose proof (B _ _ _ FO) as BB. rewrite app_length in CC. cbn [length] in CC.
      destruct (IH ls1 d1 (ret ++ [i]) LO1 HO (RD1 ls1) ltac:(lia)) as (ls2 & o & E2 & LO2 & S2 & HR).
      { intros u' f' s' FO'. rewrite U1 in FO'. destruct (root_unique fs FS _ _ _ _ _ _ _ FO FO') as (-> & -> & ->). rewrite app_length. cbn [length]. lia. }
      { intros j I. apply in_app_or in I. destruct I as [I|[<-|[]]]; [apply NN; exact I|exact Ni]. }
      rewrite U1 in HR. exists ls2, o. split; [exact E2|]. split; [exact LO2|]. split; [|exact HR].
      intros k l H. destruct (S1 k l H) as (l1 & A1 & A2 & A3 & A4 & A5). destruct (S2 k l1 A1) as (l2 & C1 & C2 & C3 & C4 & C5). exists l2. split; [exact C1|]. split; [congruence|].
      split; [intros X; rewrite C3; [auto|rewrite A3; auto]|]. split; [auto|]. intros t Ht. destruct (A5 t Ht) as (t1 & H1 & X1). destruct (C5 t1 H1) as (t2 & H2 & X2). exists t2. split; [exact H2|]. eapply ext_trans; eassumption.
  - eexists ls1, None. split; [reflexivity|]. split; [exact LO1|]. split; [exact S1|]. intros u f s i FO CH Ei. pose proof (dl_complete _ _ _ HO) as DL. rewrite U1 in DL.
    destruct DL as [(u' & f' & s' & FO' & _ & CI)|(NF & _)]; [|exact (NF _ _ _ FO)]. destruct (root_unique fs FS _ _ _ _ _ _ _ FO FO') as (-> & -> & ->).
    apply CI in CH. exact (NN i CH Ei).
Qed.
(** ** stat *)
Definition stat_is (url : list Z) (o : option info) : Prop :=
  match fs url with
  | Some f => o = Some (phys f)
  | None => (exists u f s rest, file_of fs url u f s /\ url = u ++ 47 :: rest /\ o = lookup (listed_root (f_info f) s) rest) \/
            ((forall u f s, ~ file_of fs url u f s) /\ o = None)
  end.
Lemma lookup_name i s dir c j : ~ In 47 c -> lookup (listed_root i s) (path_in dir c) = Some j -> i_name j = c.
Proof.
  intros Nc. rewrite (lookup_full i i), (comps_in_dir dir c Nc), tfind_app. unfold inf. destruct (tfind (added (T i []) (ents s)) (dir_path dir)) as [y|] eqn:Fy; [|discriminate].
  cbn [tfind]. destruct (get (t_ch y) c) as [z|] eqn:G; [|discriminate]. intros E. destruct (wf_tree i (ents s) _ _ Fy) as (_ & _ & W). apply get_in in G. rewrite <- (proj2 (W _ _ G)). congruence.
Qed.
Lemma below_deep u a b : ~ In 47 b -> root_of u a -> below u (a ++ 47 :: b) = Some (path_in (below u a) b).
Proof.
  intros NS [->|(r & ->)].
  - apply below_iff. destruct (below a a) as [x|] eqn:B; [|reflexivity]. exfalso. apply below_iff in B. apply (f_equal zlen) in B. rewrite zlen_app, zlen_cons in B. pose proof (zlen_nonneg x). lia.
  - rewrite (proj2 (below_iff u (u ++ 47 :: r) r) eq_refl). apply below_iff. cbn [path_in]. rewrite <- app_assoc. reflexivity.
Qed.
Lemma stat_ok r url : RI r -> exists r' o, stat fs N r url = Ret (r', o) /\ RI r' /\ wstep (r_lips r) (r_lips r') /\ r_dls r' = r_dls r /\ stat_is url o.
Proof.
  intros RIr. unfold stat, stat_is. rewrite (localStat_ok fs FS r url RIr). cbn [bind]. destruct (fs url) as [f|] eqn:F.
  - exists r, (Some (phys f)). split; [reflexivity|]. split; [exact RIr|]. split; [apply lstep_weak, lstep_refl|]. auto.
  - destruct (cache_find_ok fs r url RIr) as (sub & -> & Hs). cbn [bind]. destruct sub as [x|].
    + destruct Hs as (u & f & s & FO & TF). exists r, (Some (t_info x)). split; [reflexivity|]. split; [exact RIr|]. split; [apply lstep_weak, lstep_refl|]. split; [reflexivity|].
      left. pose proof FO as (A & B & R). destruct R as [->|(rest & E)]; [congruence|]. exists u, f, s, rest. split; [exact FO|]. split; [exact E|].
      rewrite (proj2 (below_iff u url rest) E) in TF. rewrite (lookup_full (f_info f) (phys f)). cbn [dir_path] in TF. unfold full in TF. rewrite TF. reflexivity.
    + pose proof (cut_spec url) as S. destruct (rfind_slash url 0 None) as [p|].
      * destruct S as (a & b & E & NS & Ep & Ea & Eb). rewrite Ea, Eb. destruct (dirEntries_ok fs FS r a RIr) as (r1 & d & -> & RI1 & W1 & D1 & U1 & DI & RD). cbn [bind].
        pose proof RI1 as (LO1 & PO1 & CO1).
        destruct (stat_loop_ok b N (r_lips r1) d [] LO1 DI RD N0) as (ls & o & -> & LO2 & S2 & HO).
        { intros u f s FO. destruct FO as (A & B & _). pose proof (BIG _ _ _ A B). cbn [length]. lia. }
        { intros i []. }
        cbn [bind]. eexists _, o. split; [reflexivity|]. cbn [r_lips r_dls]. split.
        { split; [exact LO2|]. split; cbn [r_lips r_prog r_cache]; [exact (prog_step _ _ _ S2 PO1)|exact (cache_step _ _ _ (lstep_weak _ _ S2) CO1)]. }
        split; [eapply wstep_trans; [exact W1|apply lstep_weak; exact S2]|]. split; [exact D1|]. rewrite U1 in HO.
        assert (forall u f s, file_of fs url u f s -> file_of fs a u f s /\ below u url = Some (path_in (below u a) b)) as UP.
        { intros u f s (A & B & R). rewrite E in R. apply (root_cut2 a b u NS) in R. destruct R as [->|R]; [rewrite <- E in A; congruence|]. split; [split; [exact A|split; assumption]|]. rewrite E. apply below_deep; assumption. }
        assert (forall u f s, file_of fs a u f s -> file_of fs url u f s) as DN.
        { intros u f s (A & B & R). split; [exact A|]. split; [exact B|]. rewrite E. apply root_cut2; [exact NS|right; exact R]. }
        destruct (file_dec url) as [(u & f & s & FO)|NF].
        -- left. destruct (UP _ _ _ FO) as (FO' & Eb2). exists u, f, s, (path_in (below u a) b). split; [exact FO|]. split; [apply below_iff; exact Eb2|].
           destruct o as [i|].
           ++ destruct HO as (Ni & u' & f' & s' & FO2 & (c & Nc & Lc & Ic)). destruct (root_unique fs FS _ _ _ _ _ _ _ FO' FO2) as (-> & -> & ->). rewrite <- Ni, Ic. symmetry. exact Lc.
           ++ destruct (lookup (listed_root (f_info f) s) (path_in (below u a) b)) as [i|] eqn:LK; [|reflexivity]. exfalso. apply (HO u f s i FO').
              ** exists b. split; [exact NS|]. split; [exact LK|]. eapply lookup_name; eassumption.
              ** eapply lookup_name; eassumption.
        -- right. split; [exact NF|]. destruct o as [i|]; [|reflexivity]. destruct HO as (_ & u & f & s & FO & _). exfalso. exact (NF _ _ _ (DN _ _ _ FO)).
      * exists r, None. split; [reflexivity|]. split; [exact RIr|]. split; [apply lstep_weak, lstep_refl|]. split; [reflexivity|]. right. split; [|reflexivity].
        intros u f s (A & B & R). rewrite (root_noslash url u S R) in A. congruence.
Qed.
(** ** isArchive and canHandle *)
Lemma isArchive_ok r url : RI r -> isArchive fs r url = Ret (r, match fs url with Some f => negb (i_type (f_info f) =? 0) || match f_stream f with Some (Arch _ _) => true | _ => false end | None => false end) \/
  exists f, fs url = Some f /\ (i_type (f_info f) < 0 \/ 3 <= i_type (f_info f)).
Proof.
  intros RIr. unfold isArchive. rewrite (localStat_ok fs FS r url RIr). cbn [bind]. destruct (fs url) as [f|] eqn:F; [|left; reflexivity].
  destruct (Z.lt_ge_cases (i_type (f_info f)) 0); [right; eauto|]. destruct (Z.lt_ge_cases (i_type (f_info f)) 3); [|right; exists f; split; [reflexivity|right; assumption]]. left. do 2 f_equal. unfold phys.
  assert (negb (Z.land (i_type (f_info f)) 3 =? 0) = negb (i_type (f_info f) =? 0)) as E by (assert (i_type (f_info f) = 0 \/ i_type (f_info f) = 1 \/ i_type (f_info f) = 2) as [-> | [-> | ->]] by lia; reflexivity).
  destruct (f_stream f) as [[|]|]; rewrite ?E, ?orb_false_r; [reflexivity| |reflexivity]. cbn [i_type]. change (negb (Z.land 3 3 =? 0)) with true. rewrite orb_true_r. reflexivity.
Qed.
Definition nearest (url u : list Z) (f : file) : Prop := fs u = Some f /\ root_of u url /\ forall u' f', fs u' = Some f' -> root_of u' url -> root_of u' u.
Lemma root_refl u : root_of u u. Proof. left. reflexivity. Qed.
Lemma handle_ok fuel : forall r n, RI r -> zlen n < Z.of_nat fuel -> exists o, handle_loop fs fuel r n = Ret (r, o) /\
  match o with Some i => exists u f, nearest n u f /\ i = phys f | None => forall u f, fs u = Some f -> ~ root_of u n end.
Proof.
  induction fuel as [|fuel IH]; intros r n RIr H; [pose proof (zlen_nonneg n); lia|]. cbn [handle_loop]. rewrite (localStat_ok fs FS r n RIr). cbn [bind]. destruct (fs n) as [f|] eqn:F.
  - eexists. split; [reflexivity|]. exists n, f. split; [|reflexivity]. split; [exact F|]. split; [apply root_refl|]. intros u' f' _ R. exact R.
  - pose proof (cut_spec n) as S. destruct (rfind_slash n 0 None) as [p|].
    + destruct S as (a & b & E & NS & Ep & Ea & _). rewrite Ea. pose proof (zlen_nonneg b). assert (zlen n = zlen a + 1 + zlen b) as Ln by (rewrite E, zlen_app, zlen_cons; lia).
      assert (forall u f', fs u = Some f' -> root_of u n -> root_of u a) as DN.
      { intros u f' A R. rewrite E in R. apply (root_cut2 a b u NS) in R. destruct R as [->|R]; [rewrite <- E in A; congruence|exact R]. }
      destruct (Z.eqb_spec p 0) as [P0|P0].
      * eexists. split; [reflexivity|]. intros u f' A R. apply (DN _ _ A) in R.
        assert (a = []) as EA by (destruct a as [|x a']; [reflexivity|rewrite zlen_cons in Ep; pose proof (zlen_nonneg a'); lia]). rewrite EA in R. rewrite (root_noslash [] u (fun x => x) R) in A. destruct FS as (F0 & _). congruence.
      * destruct (IH r a RIr ltac:(lia)) as (o & -> & Ho). exists o. split; [reflexivity|]. destruct o as [i|].
        -- destruct Ho as (u & f & (A & R & M) & Ei). exists u, f. split; [|exact Ei]. split; [exact A|]. split; [rewrite E; apply root_cut2; [exact NS|right; exact R]|]. intros u' f' A' R'. apply (M u' f' A'). exact (DN _ _ A' R').
        -- intros u f A R. exact (Ho u f A (DN _ _ A R)).
    + eexists. split; [reflexivity|]. intros u f A R. rewrite (root_noslash n u S R) in A. congruence.
Qed.
Definition plain_types : Prop := forall u f, fs u = Some f -> 0 <= i_type (f_info f) <= 2.
Lemma canHandle_ok r url : plain_types -> RI r -> exists b, canHandle fs r url = Ret (r, b) /\ (b = true <-> exists u f e es, file_of fs url u f (Arch e es)).
Proof.
  intros PT RIr. unfold canHandle. destruct (handle_ok (length url + 1) r url RIr ltac:(unfold zlen; lia)) as (o & -> & Ho). cbn [bind]. eexists. split; [reflexivity|]. destruct o as [i|].
  - destruct Ho as (u & f & (A & R & M) & ->). pose proof (PT _ _ A) as T. split.
    + intros H. exists u, f. destruct (f_stream f) as [[|e es]|] eqn:B; unfold phys in H; rewrite B in H.
      1,3: exfalso; assert (i_type (f_info f) = 0 \/ i_type (f_info f) = 1 \/ i_type (f_info f) = 2) as [X|[X|X]] by lia; rewrite X in H; discriminate.
      exists e, es. split; [exact A|]. split; assumption.
    + intros (u' & f' & e & es & FO). pose proof FO as (A' & B' & R'). assert (u' = u) as ->.
      { destruct (M _ _ A' R') as [->|(r0 & ->)]; [reflexivity|]. destruct FS as (_ & H). destruct (H _ _ _ A' B') as (_ & _ & _ & NB). rewrite NB in A. discriminate. }
      assert (f' = f) as -> by congruence. unfold phys. rewrite B'. reflexivity.
  - split; [discriminate|]. intros (u & f & e & es & (A & B & R)). exfalso. exact (Ho _ _ A R).
Qed.
(** ** programs *)
Definition answers (o : rop) (v : rres) : Prop :=
  match o, v with
  | RDir _, VLister _ => True
  | RNext _, VInfo _ => True
  | RStat url, VInfo x => stat_is url x
  | RIsArchive url, VBool b => (exists r, RI r /\ isArchive fs r url = Ret (r, b))
  | RCanHandle url, VBool b => (exists r, RI r /\ canHandle fs r url = Ret (r, b))
  | ROpen url, VStream x => openStream fs url = Ret x
  | _, _ => False
  end.
Definition Inv (evs : list (rop * rres)) (r : reader) : Prop :=
  RI r /\ (forall k d, nth_error (r_dls r) k = Some d -> exists fin, dl_is (r_lips r) d (returned k evs) fin /\ (fin = true <-> ended k evs)) /\
  (forall url k, In (RDir url, VLister k) evs -> exists d, nth_error (r_dls r) k = Some d /\ dl_url d = url) /\
  (forall k, (length (r_dls r) <= k)%nat -> returned k evs = [] /\ ~ ended k evs).
Lemma returned_app k a b : returned k (a ++ b) = returned k a ++ returned k b.
Proof. unfold returned. apply flat_map_app. Qed.
Lemma ended_app k a b : ended k (a ++ b) <-> ended k a \/ ended k b.
Proof. unfold ended. rewrite in_app_iff. reflexivity. Qed.
Definition quiet (o : rop) : Prop := match o with RDir _ | RNext _ => False | _ => True end.
Lemma quiet_returned o v k : quiet o -> returned k [(o, v)] = [] /\ ~ ended k [(o, v)].
Proof. intros Q. split; [destruct o; try destruct Q; reflexivity|]. intros [E|[]]. destruct o; try destruct Q; discriminate. Qed.
Lemma inv_quiet evs r r' o v : Inv evs r -> quiet o -> RI r' -> wstep (r_lips r) (r_lips r') -> r_dls r' = r_dls r -> Inv (evs ++ [(o, v)]) r'.
Proof.
  intros (R & D & U & F) Q R' W E. split; [exact R'|]. rewrite E. split; [|split].
  - intros k d H. destruct (D k d H) as (fin & A & B). exists fin. destruct (quiet_returned o v k Q) as (Q1 & Q2). rewrite returned_app, Q1, app_nil_r. split; [eapply dl_step; [exact (proj1 R)|exact W|exact A]|].
    rewrite ended_app. tauto.
  - intros url k I. apply in_app_or in I. destruct I as [I|[I|[]]]; [exact (U url k I)|]. injection I as -> _. destruct Q.
  - intros k L. destruct (F k L) as (F1 & F2). destruct (quiet_returned o v k Q) as (Q1 & Q2). rewrite returned_app, Q1, app_nil_r, ended_app. tauto.
Qed.
Lemma inv_dir evs r r' d url : Inv evs r -> RI r' -> wstep (r_lips r) (r_lips r') -> r_dls r' = r_dls r -> dl_url d = url -> dl_is (r_lips r') d [] false ->
  Inv (evs ++ [(RDir url, VLister (length (r_dls r')))]) (mkReader (r_lips r') (r_prog r') (r_cache r') (r_dls r' ++ [d])).
Proof.
  intros (R & D & U & F) R' W E Ed HD. rewrite E. set (v := VLister _).
  assert (forall k, returned k [(RDir url, v)] = [] /\ ~ ended k [(RDir url, v)]) as Q by (intros k; split; [reflexivity|intros [C|[]]; discriminate]).
  split; [exact R'|]. cbn [r_lips r_prog r_cache r_dls]. split; [|split].
  - intros k d' H. destruct (Q k) as (Q1 & Q2). rewrite returned_app, Q1, app_nil_r. destruct (Nat.lt_ge_cases k (length (r_dls r))) as [L|L].
    + rewrite nth_error_app1 in H by exact L. destruct (D k d' H) as (fin & A & B). exists fin. split; [eapply dl_step; [exact (proj1 R)|exact W|exact A]|]. rewrite ended_app. tauto.
    + rewrite nth_error_app2 in H by exact L. destruct (k - length (r_dls r))%nat as [|j]; [|destruct j; discriminate]. injection H as <-. destruct (F k L) as (F1 & F2). rewrite F1. exists false. split; [exact HD|]. rewrite ended_app. split; [discriminate|tauto].
  - intros url' k I. apply in_app_or in I. destruct I as [I|[I|[]]].
    + destruct (U _ _ I) as (d' & H & E'). exists d'. split; [|exact E']. rewrite nth_error_app1; [exact H|apply nth_error_Some; congruence].
    + unfold v in I. injection I as <- <-. exists d. split; [|exact Ed]. rewrite nth_error_app2, Nat.sub_diag by lia. reflexivity.
  - intros k L. rewrite app_length in L. cbn [length] in L. destruct (F k ltac:(lia)) as (F1 & F2). destruct (Q k) as (Q1 & Q2). rewrite returned_app, Q1, app_nil_r, ended_app. tauto.
Qed.
Lemma inv_next evs r ls d d' j o : Inv evs r -> nth_error (r_dls r) j = Some d -> lips_ok ls -> lstep (r_lips r) ls -> dl_url d' = dl_url d ->
  (forall fin, dl_is (r_lips r) d (returned j evs) fin -> match o with Some i => fin = false /\ dl_is ls d' (returned j evs ++ [i]) false | None => dl_is ls d' (returned j evs) true end) ->
  Inv (evs ++ [(RNext j, VInfo o)]) (mkReader ls (r_prog r) (r_cache r) (upd (r_dls r) j d')).
Proof.
  intros (R & D & U & F) H LO S Eu HO. destruct R as (LO0 & PO & CO). split; [|split; [|split]]; cbn [r_lips r_prog r_cache r_dls].
  - split; [exact LO|]. split; [exact (prog_step _ _ _ S PO)|exact (cache_step _ _ _ (lstep_weak _ _ S) CO)].
  - intros k dk Hk. rewrite nth_upd in Hk. rewrite returned_app. destruct (Nat.eqb_spec k j) as [->|NE].
    + rewrite H in Hk. injection Hk as <-. destruct (D j d H) as (fin & A & B). specialize (HO fin A). destruct o as [i|].
      * destruct HO as (-> & HO). exists false. cbn [returned flat_map app]. rewrite Nat.eqb_refl. split; [exact HO|]. rewrite ended_app. split; [discriminate|]. intros [C|[C|[]]]; [apply B; exact C|discriminate].
      * exists true. cbn [returned flat_map]. rewrite app_nil_r. split; [exact HO|]. rewrite ended_app. split; [intros _; right; left; reflexivity|reflexivity].
    + destruct (D k dk Hk) as (fin & A & B). exists fin. assert (returned k [(RNext j, VInfo o)] = []) as -> by (cbn [returned flat_map]; destruct o; [|reflexivity]; destruct (Nat.eqb_spec j k); [congruence|reflexivity]).
      rewrite app_nil_r. split; [eapply dl_step; [exact LO0|apply lstep_weak; exact S|exact A]|]. rewrite ended_app. split; [tauto|]. intros [C|[C|[]]]; [tauto|congruence].
  - intros url k I. apply in_app_or in I. destruct I as [I|[I|[]]]; [|discriminate]. destruct (U _ _ I) as (dk & Hk & Ek). rewrite nth_upd. destruct (Nat.eqb_spec k j) as [->|NE]; [|eauto]. rewrite H. exists d'. split; [reflexivity|]. congruence.
  - intros k L. rewrite upd_length in L. destruct (F k L) as (F1 & F2). rewrite returned_app, F1, ended_app. assert (k <> j) by (intros ->; apply (nth_error_None (r_dls r) j) in L; congruence).
    assert (returned k [(RNext j, VInfo o)] = []) as -> by (cbn [returned flat_map]; destruct o; [|reflexivity]; destruct (Nat.eqb_spec j k); [congruence|reflexivity]).
    split; [reflexivity|]. intros [C|[C|[]]]; [tauto|congruence].
Qed.
(** a lister that has been asked can always be asked again *)
Definition started (d : dl) : Prop := forall ls, ready ls d.
Lemma rstep_ok evs r o : Inv evs r -> plain_types ->
  (exists r' v, rstep fs N r o = Ret (r', v) /\ Inv (evs ++ [(o, v)]) r' /\ answers o v /\
     match o with
     | RDir _ => v = VLister (length (r_dls r)) /\ exists d, r_dls r' = r_dls r ++ [d] /\ ready (r_lips r') d
     | RNext k => exists d d', nth_error (r_dls r) k = Some d /\ r_dls r' = upd (r_dls r) k d' /\ started d'
     | _ => r_dls r' = r_dls r
     end) \/
  (rstep fs N r o = UB /\ exists k, o = RNext k /\ forall d, nth_error (r_dls r) k = Some d -> ~ ready (r_lips r) d).
Proof.
  intros IV PT. pose proof IV as (R & D & U & F). destruct o as [url|k|url|url|url|url]; cbn [rstep].
  - left. destruct (dirEntries_ok fs FS r url R) as (r1 & d & -> & R1 & W1 & D1 & U1 & DI & RD). cbn [bind]. eexists _, _. split; [reflexivity|]. split; [eapply inv_dir; eassumption|]. split; [exact Logic.I|].
    rewrite D1. split; [reflexivity|]. exists d. split; [cbn [r_dls]; reflexivity|exact RD].
  - destruct (nth_error (r_dls r) k) as [d|] eqn:H.
    + destruct (D k d H) as (fin & A & B). destruct (not_ready (r_lips r) d) as [RD|NR].
      * left. destruct (dl_next_ok fs FS N BIG (r_lips r) d _ fin (proj1 R) A RD) as (ls & d' & o & E & LO & S & Ed & RD' & HO). rewrite E. cbn [bind]. eexists _, _. split; [reflexivity|]. split.
        { eapply inv_next; try eassumption. intros fin' A'. destruct o as [i|]; [|exact HO]. destruct HO as (-> & HO). split; [|exact HO].
          destruct fin'; [|reflexivity]. exfalso. destruct (dl_next_ok fs FS N BIG (r_lips r) d _ true (proj1 R) A' RD) as (ls2 & d2 & o2 & E2 & _ & _ & _ & _ & HO2). rewrite E in E2. assert (o2 = Some i) by congruence. subst o2. destruct HO2 as (C & _). discriminate. }
        split; [exact Logic.I|]. exists d, d'. split; [reflexivity|]. split; [reflexivity|exact RD'].
      * assert (ready (r_lips r) d \/ dl_next N (r_lips r) d = UB) as [RD|E] by (destruct fin; [left; eapply fin_ready; exact A|right; eapply NR; exact A]).
        -- left. destruct (dl_next_ok fs FS N BIG (r_lips r) d _ fin (proj1 R) A RD) as (ls & d' & o & E & LO & S & Ed & RD' & HO). rewrite E. cbn [bind]. eexists _, _. split; [reflexivity|]. split.
           { eapply inv_next; try eassumption. intros fin' A'. destruct o as [i|]; [|exact HO]. destruct HO as (-> & HO). split; [|exact HO].
             destruct fin'; [|reflexivity]. exfalso. destruct (dl_next_ok fs FS N BIG (r_lips r) d _ true (proj1 R) A' RD) as (ls2 & d2 & o2 & E2 & _ & _ & _ & _ & HO2). rewrite E in E2. assert (o2 = Some i) by congruence. subst o2. destruct HO2 as (C & _). discriminate. }
           split; [exact Logic.I|]. exists d, d'. split; [reflexivity|]. split; [reflexivity|exact RD'].
        -- right. rewrite E. split; [reflexivity|]. exists k. split; [reflexivity|]. intros d' Hd RD. assert (d' = d) by congruence. subst d'.
           destruct (dl_next_ok fs FS N BIG (r_lips r) d _ fin (proj1 R) A RD) as (ls & d' & o & E2 & _). rewrite E in E2. discriminate.
    + right. split; [reflexivity|]. exists k. split; [reflexivity|]. intros d C. congruence.
  - left. destruct (stat_ok r url R) as (r1 & o & -> & R1 & W1 & D1 & HO). cbn [bind]. eexists _, _. split; [reflexivity|]. split; [eapply inv_quiet; try eassumption; exact Logic.I|]. split; [exact HO|exact D1].
  - left. assert (exists b, isArchive fs r url = Ret (r, b)) as (b & E) by (unfold isArchive; rewrite (localStat_ok fs FS r url R); cbn [bind]; eauto). rewrite E. cbn [bind]. eexists _, _. split; [reflexivity|].
    split; [eapply inv_quiet; try eassumption; [exact Logic.I|apply lstep_weak, lstep_refl|reflexivity]|]. split; [exists r; auto|reflexivity].
  - left. destruct (canHandle_ok r url PT R) as (b & E & _). rewrite E. cbn [bind]. eexists _, _. split; [reflexivity|].
    split; [eapply inv_quiet; try eassumption; [exact Logic.I|apply lstep_weak, lstep_refl|reflexivity]|]. split; [exists r; auto|reflexivity].
  - left. destruct (open_total fs url) as (x & E). rewrite E. cbn [bind]. eexists _, _. split; [reflexivity|].
    split; [eapply inv_quiet; try eassumption; [exact Logic.I|apply lstep_weak, lstep_refl|reflexivity]|]. split; [exact E|reflexivity].
Qed.
Lemma rrun_inv os : forall evs r r' vs, Inv evs r -> plain_types -> rrun fs N r os = Ret (r', vs) ->
  length vs = length os /\ Inv (evs ++ combine os vs) r' /\ forall o v, In (o, v) (combine os vs) -> answers o v.
Proof.
  induction os as [|o os IH]; intros evs r r' vs IV PT E; cbn [rrun] in E.
  - injection E as <- <-. cbn. rewrite app_nil_r. split; [reflexivity|]. split; [exact IV|intros o v []].
  - destruct (rstep_ok evs r o IV PT) as [(r1 & v & E1 & IV1 & AN & _)|(E1 & _)]; rewrite E1 in E; cbn [bind] in E; [|discriminate].
    destruct (rrun fs N r1 os) as [(r2 & vs2)| | |] eqn:E2; cbn [bind] in E; try discriminate. injection E as <- <-.
    destruct (IH _ _ _ _ IV1 PT E2) as (L & I2 & A2). cbn [length combine]. rewrite <- app_assoc in I2. split; [congruence|]. split; [exact I2|].
    intros o' v' [X|X]; [assert (o' = o) by congruence; assert (v' = v) by congruence; subst; exact AN|exact (A2 _ _ X)].
Qed.
Lemma rrun_prompt n : forall os evs r, (length os <= n)%nat -> Inv evs r -> plain_types -> (forall d, In d (r_dls r) -> started d) -> prompt (length (r_dls r)) os -> exists r' vs, rrun fs N r os = Ret (r', vs).
Proof.
  assert (forall (ds : list dl) k d', (forall d, In d ds -> started d) -> started d' -> forall d, In d (upd ds k d') -> started d) as UPD.
  { intros ds. induction ds as [|x ds IHd]; intros [|k] d' H1 H2 d I; cbn in I.
    - destruct I. - destruct I. - destruct I as [<-|I]; [exact H2|apply H1; right; exact I].
    - destruct I as [<-|I]; [apply H1; left; reflexivity|]. apply (IHd k d' (fun y Hy => H1 y (or_intror Hy)) H2 d I). }
  induction n as [|n IH]; intros os evs r L IV PT ST PR.
  - destruct os; [|cbn in L; lia]. exists r, []. reflexivity.
  - destruct os as [|o os]; [exists r, []; reflexivity|]. cbn [length] in L. cbn [rrun].
    assert (forall r1 v, Inv (evs ++ [(o, v)]) r1 -> r_dls r1 = r_dls r -> prompt (length (r_dls r)) os -> exists r' vs, (let* (r0, vs) := rrun fs N r1 os in Ret (r0, v :: vs)) = Ret (r', vs)) as GO.
    { intros r1 v IV1 E1 P1. rewrite <- E1 in P1, ST. destruct (IH os _ r1 ltac:(lia) IV1 PT ST P1) as (r2 & vs & ->). cbn [bind]. eauto. }
    destruct (rstep_ok evs r o IV PT) as [(r1 & v & E1 & IV1 & AN & HD)|(E1 & k & -> & NR)]; rewrite E1; cbn [bind].
    + destruct o as [url|k|url|url|url|url]; try (apply GO; [exact IV1|exact HD|exact PR]).
      * destruct HD as (-> & d & ED & RD). cbn [prompt] in PR. destruct os as [|[|k| | | |] os]; try destruct PR. subst k. rename H0 into PR. cbn [length] in L. cbn [rrun].
        assert (nth_error (r_dls r1) (length (r_dls r)) = Some d) as Hd by (rewrite ED, nth_error_app2, Nat.sub_diag by lia; reflexivity).
        destruct (rstep_ok _ r1 (RNext (length (r_dls r))) IV1 PT) as [(r2 & v2 & E2 & IV2 & _ & (d1 & d2 & H1 & H2 & H3))|(_ & k & EK & NR)].
        -- rewrite E2. cbn [bind]. destruct (IH os _ r2 ltac:(lia) IV2 PT) as (r3 & vs & ->).
           { intros x I. rewrite H2, ED in I.
             assert (upd (r_dls r ++ [d]) (length (r_dls r)) d2 = r_dls r ++ [d2]) as EU by (clear; induction (r_dls r) as [|y l IHl]; cbn; [reflexivity|rewrite IHl; reflexivity]).
             rewrite EU in I. apply in_app_or in I. destruct I as [I|[<-|[]]]; [apply ST; exact I|exact H3]. }
           { rewrite H2, upd_length, ED, app_length, Nat.add_comm. exact PR. }
           cbn [bind]. eauto.
        -- exfalso. injection EK as <-. exact (NR d Hd RD).
      * destruct HD as (d1 & d2 & H1 & H2 & H3). cbn [prompt] in PR. destruct PR as (_ & PR). destruct (IH os _ r1 ltac:(lia) IV1 PT) as (r3 & vs & ->).
        { rewrite H2. apply UPD; assumption. } { rewrite H2, upd_length. exact PR. } cbn [bind]. eauto.
    + exfalso. cbn [prompt] in PR. destruct PR as (LK & _). destruct (nth_error (r_dls r) k) as [d|] eqn:H; [|apply nth_error_None in H; lia].
      apply (NR d eq_refl). apply ST. eapply nth_error_In. exact H.
Qed.
Lemma inv0 : Inv [] reader0.
Proof.
  split; [|split; [|split]].
  - split; [intros [|k] l C; discriminate|]. split; [split; [constructor|intros u k []]|intros u k []].
  - intros [|k] d C; discriminate.
  - intros url k [].
  - intros k _. split; [reflexivity|intros []].
Qed.
End R.
