(** Proofs for C43: openStream. *)
From Verif Require Import Base StreamSpec ArchiveSpec M_Ar CacheSpec M_Cache P_Cpio P_Cache M_Listing ListingSpec P_Listing M_Reader ReaderSpec P_Reader2 P_Reader5.

(** the positions behind the slashes *)
Fixpoint sl (i : Z) (f : list Z) : list Z := match f with [] => [] | c :: f' => if c =? 47 then (i + 1) :: sl (i + 1) f' else sl (i + 1) f' end.
Lemma sl_app i a b : sl i (a ++ b) = sl i a ++ sl (i + zlen a) b.
Proof.
  revert i. induction a as [|c a IH]; intros i; cbn [app sl]; [rewrite Z.add_0_r; reflexivity|]. rewrite zlen_cons, IH. replace (i + 1 + zlen a) with (i + (1 + zlen a)) by lia.
  destruct (c =? 47); reflexivity.
Qed.
Lemma sl_none i f : ~ In 47 f -> sl i f = [].
Proof. revert i. induction f as [|c f IH]; intros i H; [reflexivity|]. cbn [sl]. destruct (Z.eqb_spec c 47) as [->|]; [exfalso; apply H; left; reflexivity|]. apply IH. intros C. apply H. right. exact C. Qed.
Lemma sl_length i f : (length (sl i f) <= length f)%nat.
Proof. revert i. induction f as [|c f IH]; intros i; [cbn; lia|]. cbn [sl]. specialize (IH (i + 1)). destruct (c =? 47); cbn [length]; lia. Qed.
Lemma skip_all n : forall i x, i + zlen n <= x -> (forall a, n <> a ++ [47]) -> forall rest, skip_below (sl i n ++ rest) x = skip_below rest x.
Proof.
  induction n as [|c n IH]; intros i x Hx NE rest; [reflexivity|]. rewrite zlen_cons in Hx. pose proof (zlen_nonneg n). cbn [sl].
  assert (n <> [] -> forall a, n <> a ++ [47]) as NE' by (intros _ a E; apply (NE (c :: a)); rewrite E; reflexivity).
  destruct n as [|d n].
  - cbn [sl]. destruct (Z.eqb_spec c 47) as [->|]; [exfalso; exact (NE [] eq_refl)|]. reflexivity.
  - rewrite zlen_cons in Hx. destruct (c =? 47).
    + cbn [app skip_below]. pose proof (zlen_nonneg n). destruct (Z.ltb_spec (i + 1) x); [|lia]. apply IH; [rewrite zlen_cons; lia|apply NE'; discriminate].
    + apply IH; [rewrite zlen_cons; lia|apply NE'; discriminate].
Qed.
(** ** cullName *)
Section Cull.
Variable fs : list Z -> option file.
Hypothesis FS : fs_ok fs.
Lemma cull_parts fuel : forall url n acc tail, url = n ++ tail -> forall u s, snd (cull fs fuel url n acc) = Some (u, s) ->
  exists f, n = u ++ f /\ (f = [] \/ exists f', f = 47 :: f') /\ rev (fst (cull fs fuel url n acc)) = sl (zlen u) f ++ rev acc.
Proof.
  induction fuel as [|fuel IH]; intros url n acc tail E u s; cbn [cull]; destruct (open fs n) as [s0|] eqn:O.
  - cbn [snd fst]. intros X. assert (n = u) by congruence. subst u. exists []. rewrite app_nil_r. auto.
  - discriminate.
  - cbn [snd fst]. intros X. assert (n = u) by congruence. subst u. exists []. rewrite app_nil_r. auto.
  - pose proof (cut_spec n) as S. destruct (rfind_slash n 0 None) as [p|]; [|discriminate]. destruct S as (a & b & En & NS & Ep & _). pose proof (zlen_nonneg a). destruct (p =? 0); [discriminate|].
    assert (slice url 0 p = a) as -> by (rewrite E, En, Ep, <- app_assoc; rewrite slice_app_l by lia; apply slice_all).
    intros X. destruct (IH url a (acc ++ [p + 1]) (47 :: b ++ tail)) with (u := u) (s := s) as (f & Ea & Hf & ER).
    { rewrite E, En, <- app_assoc. reflexivity. } { exact X. }
    exists (f ++ 47 :: b). split; [rewrite En, Ea, <- app_assoc; reflexivity|]. split.
    { right. destruct Hf as [->|(f' & ->)]; [exists b; reflexivity|]. eexists. cbn [app]. reflexivity. }
    rewrite ER, rev_app_distr. cbn [rev app]. rewrite sl_app. cbn [sl]. change (47 =? 47) with true. cbn iota. rewrite (sl_none _ b NS). rewrite <- app_assoc. cbn [app]. do 3 f_equal. rewrite Ep, Ea, zlen_app. reflexivity.
Qed.
Lemma cullName_parts url u s : snd (cullName fs url) = Some (u, s) -> exists f, url = u ++ f /\ (f = [] \/ exists f', f = 47 :: f') /\ rev (fst (cullName fs url)) = sl (zlen u) f.
Proof. intros E. destruct (cull_parts (length url) url url [] [] (eq_sym (app_nil_r url)) u s E) as (f & A & B & C). exists f. rewrite app_nil_r in C. auto. Qed.
End Cull.
(** ** names *)
Lemma strncmp_prefix n : forall f, ~ In 0 n -> strncmp_eq n f (length n) = true <-> starts n f.
Proof.
  induction n as [|c n IH]; intros f H; cbn [length strncmp_eq].
  - split; [exists f; reflexivity|reflexivity].
  - cbn [hd tl]. assert (c <> 0) as Nc by (intros ->; apply H; left; reflexivity). assert (~ In 0 n) as Hn by (intros C; apply H; right; exact C). destruct f as [|d f]; cbn [hd tl].
    + destruct (Z.eqb_spec c 0); [congruence|]. split; [discriminate|]. intros (r & C). discriminate.
    + destruct (Z.eqb_spec c d) as [->|NE].
      * destruct (Z.eqb_spec d 0); [congruence|]. rewrite (IH f Hn). split; intros (r & E); exists r; [rewrite E; reflexivity|cbn in E; congruence].
      * split; [discriminate|]. intros (r & E). cbn in E. congruence.
Qed.
Lemma starts_both a b f : starts a f -> starts b f -> starts a b \/ starts b a.
Proof.
  revert b f. induction a as [|x a IH]; intros b f; [left; exists b; reflexivity|]. intros (r & E) (r' & E'). destruct b as [|y b]; [right; exists (x :: a); reflexivity|]. subst f. cbn in E'.
  injection E' as <- E'. destruct (IH b (a ++ r)) as [(q & Q)|(q & Q)]; [exists r; reflexivity|exists r'; exact E'| |]; [left|right]; exists q; cbn; congruence.
Qed.
Definition hit (url : list Z) (i : Z) (e : entry) : bool :=
  (i_type (e_info e) =? 2) && (zlen (i_name (e_info e)) <? zlen url) && strncmp_eq (i_name (e_info e)) (skipn (Z.to_nat i) url) (length (i_name (e_info e))).
Lemma find_match_some url i l x : find_match url i l = Some x -> exists a b, l = a ++ x :: b /\ hit url i x = true.
Proof.
  induction l as [|e l IH]; [discriminate|]. cbn [find_match]. fold (hit url i e). destruct (hit url i e) eqn:H.
  - intros E. assert (e = x) by congruence. subst e. exists [], l. auto.
  - intros E. destruct (IH E) as (a & b & -> & Hx). exists (e :: a), b. auto.
Qed.
Lemma find_match_first url i a x b : (forall y, In y a -> hit url i y = false) -> hit url i x = true -> find_match url i (a ++ x :: b) = Some x.
Proof.
  intros H Hx. induction a as [|y a IH]; cbn [app find_match].
  - fold (hit url i x). rewrite Hx. reflexivity.
  - fold (hit url i y). rewrite (H y (or_introl eq_refl)). apply IH. intros z I. apply H. right. exact I.
Qed.
Lemma hit_iff pre f e : ~ In 0 (i_name (e_info e)) -> pre <> [] -> hit (pre ++ f) (zlen pre) e = true <-> i_type (e_info e) = 2 /\ starts (i_name (e_info e)) f.
Proof.
  intros N0 NE. unfold hit. replace (skipn (Z.to_nat (zlen pre)) (pre ++ f)) with f by (unfold zlen; rewrite Nat2Z.id, skipn_app, skipn_all, Nat.sub_diag; reflexivity).
  rewrite !andb_true_iff, Z.eqb_eq, Z.ltb_lt, (strncmp_prefix _ f N0). rewrite zlen_app. split; [tauto|]. intros (A & B). split; [split; [exact A|]|exact B].
  destruct B as (r & ->). rewrite zlen_app. pose proof (zlen_nonneg r). destruct pre as [|c pre]; [congruence|]. rewrite zlen_cons. pose proof (zlen_nonneg pre). lia.
Qed.
Lemma skip_here i n : (forall a, n <> a ++ [47]) -> skip_below (sl i n) (i + zlen n) = [].
Proof. intros H. rewrite <- (app_nil_r (sl i n)). rewrite skip_all by (try assumption; lia). reflexivity. Qed.
Lemma skip_in i n rest : (forall a, n <> a ++ [47]) -> skip_below (sl i (n ++ 47 :: rest)) (i + zlen n) = (i + zlen n + 1) :: sl (i + zlen n + 1) rest.
Proof. intros H. rewrite sl_app, skip_all by (try assumption; lia). cbn [sl]. change (47 =? 47) with true. cbn iota. cbn [skip_below]. destruct (Z.ltb_spec (i + zlen n + 1) (i + zlen n)); [lia|]. reflexivity. Qed.
Lemma skip_len l x : (length (skip_below l x) <= length l)%nat.
Proof. induction l as [|q l IH]; [cbn; lia|]. cbn [skip_below]. destruct (q <? x); cbn [length]; lia. Qed.
(** ** totality *)
Lemma open_parts_total fuel : forall url s parts, (length parts < fuel)%nat -> exists o, open_parts fuel url s parts = Ret o.
Proof.
  induction fuel as [|fuel IH]; intros url s parts H; [lia|]. cbn [open_parts]. destruct parts as [|i rest]; [eauto|]. destruct s as [|e es]; [eauto|].
  destruct (find_match url i (e :: es)) as [x|]; [|eauto]. pose proof (skip_len rest (i + zlen (i_name (e_info x)))) as SK. cbn [length] in H. destruct (skip_below rest _) as [|q parts]; [eauto|]. apply IH. cbn [length] in *. lia.
Qed.
Lemma open_total fs url : exists x, openStream fs url = Ret x.
Proof.
  unfold openStream. destruct (open fs url); [eauto|]. destruct (cullName fs url) as (parts & cu) eqn:E. destruct cu as [(u & s)|]; [|eauto].
  destruct (cullName_parts fs url u s) as (f & A & B & C); [rewrite E; reflexivity|]. rewrite E in C. cbn [fst] in C. rewrite C.
  destruct (open_parts_total (length url + 1) url s (sl (zlen u) f)) as (o & ->).
  - pose proof (sl_length (zlen u) f) as L. rewrite A, app_length. lia.
  - cbn [bind]. eauto.
Qed.
(** ** a member is opened *)
Lemma well_in e es x : well_named (Arch e es) -> In x (e :: es) -> well_named (e_stream x).
Proof. intros W I l L. apply W. econstructor; eassumption. Qed.
Lemma open_member s f e : member_at s f e -> forall fuel pre, well_named s -> pre <> [] -> (length (sl (zlen pre) f) < fuel)%nat ->
  open_parts (S fuel) (pre ++ f) s (zlen pre :: sl (zlen pre) f) = Ret (Some e).
Proof.
  induction 1 as [e es x I T|e es x rest y I T M IH]; intros fuel pre W NE HF; cbn [open_parts];
    destruct (W _ (level_here e es)) as (W1 & W2); destruct (in_split _ _ I) as (a & b & EL); rewrite EL.
  - destruct (W1 x I T) as (N0 & NS). rewrite (find_match_first _ _ a x b).
    + rewrite (skip_here (zlen pre) _ NS). reflexivity.
    + intros z Iz. destruct (hit _ _ z) eqn:H; [|reflexivity]. exfalso. assert (In z (e :: es)) as Iz' by (rewrite EL; apply in_or_app; left; exact Iz).
      destruct (Z.eq_dec (i_type (e_info z)) 2) as [Tz|Tz].
      * destruct (W1 z Iz' Tz) as (Nz & _). apply hit_iff in H; [|exact Nz|exact NE]. destruct H as (_ & Hs). destruct (in_split _ _ Iz) as (a1 & a2 & Ea). destruct (W2 a1 z a2 x b) as (C & _); [rewrite EL, Ea, <- app_assoc; reflexivity|exact Tz|exact T|]. exact (C Hs).
      * unfold hit in H. destruct (Z.eqb_spec (i_type (e_info z)) 2); [congruence|]. discriminate.
    + apply hit_iff; [exact N0|exact NE|]. split; [exact T|]. exists []. rewrite app_nil_r. reflexivity.
  - destruct (W1 x I T) as (N0 & NS). rewrite (find_match_first _ _ a x b).
    + rewrite skip_in by exact NS. destruct fuel as [|fuel]; [lia|].
      replace (zlen pre + zlen (i_name (e_info x)) + 1) with (zlen (pre ++ i_name (e_info x) ++ [47])) by (rewrite !zlen_app; reflexivity || (rewrite zlen_cons; change (zlen (@nil Z)) with 0; lia)).
      replace (pre ++ i_name (e_info x) ++ 47 :: rest) with ((pre ++ i_name (e_info x) ++ [47]) ++ rest) by (rewrite <- !app_assoc; reflexivity).
      apply IH.
      * eapply well_in; eassumption.
      * destruct pre; [congruence|discriminate].
      * rewrite sl_app in HF. cbn [sl] in HF. change (47 =? 47) with true in HF. cbn iota in HF. rewrite app_length in HF. cbn [length] in HF.
        replace (zlen (pre ++ i_name (e_info x) ++ [47])) with (zlen pre + zlen (i_name (e_info x)) + 1) by (rewrite !zlen_app; change (zlen [47]) with 1; lia). lia.
    + intros z Iz. destruct (hit _ _ z) eqn:H; [|reflexivity]. exfalso. assert (In z (e :: es)) as Iz' by (rewrite EL; apply in_or_app; left; exact Iz).
      destruct (Z.eq_dec (i_type (e_info z)) 2) as [Tz|Tz].
      * destruct (W1 z Iz' Tz) as (Nz & _). apply hit_iff in H; [|exact Nz|exact NE]. destruct H as (_ & Hs). destruct (in_split _ _ Iz) as (a1 & a2 & Ea). destruct (W2 a1 z a2 x b) as (C1 & C2); [rewrite EL, Ea, <- app_assoc; reflexivity|exact Tz|exact T|].
        destruct (starts_both _ (i_name (e_info x)) _ Hs) as [K|K]; [eexists; reflexivity|exact (C1 K)|exact (C2 K)].
      * unfold hit in H. destruct (Z.eqb_spec (i_type (e_info z)) 2); [congruence|]. discriminate.
    + apply hit_iff; [exact N0|exact NE|]. split; [exact T|]. eexists. reflexivity.
Qed.
(** ** what is opened is a member *)
Lemma open_sound fuel : forall s f pre e, exact_path s f -> pre <> [] -> open_parts fuel (pre ++ f) s (zlen pre :: sl (zlen pre) f) = Ret (Some e) -> member_at s f e.
Proof.
  induction fuel as [|fuel IH]; intros s f pre e EX NE E; [discriminate|]. cbn [open_parts] in E. destruct s as [|e0 es]; [discriminate|].
  destruct (find_match (pre ++ f) (zlen pre) (e0 :: es)) as [x|] eqn:FM; [|discriminate]. destruct (find_match_some _ _ _ _ FM) as (a & b & EL & H).
  assert (In x (e0 :: es)) as I by (rewrite EL; apply in_or_app; right; left; reflexivity). inversion EX as [|? ? ? K]; subst.
  assert (i_type (e_info x) = 2) as T by (unfold hit in H; destruct (Z.eqb_spec (i_type (e_info x)) 2); [assumption|discriminate]).
  destruct (K x I T) as ((N0 & NS) & HR). apply hit_iff in H; [|exact N0|exact NE]. destruct H as (_ & (r & ->)). destruct (HR r eq_refl) as [->|(rest & -> & EX')].
  - rewrite app_nil_r in *. rewrite (skip_here (zlen pre) _ NS) in E. assert (x = e) by congruence. subst x. constructor; assumption.
  - rewrite (skip_in (zlen pre) _ rest NS) in E.
    replace (zlen pre + zlen (i_name (e_info x)) + 1) with (zlen (pre ++ i_name (e_info x) ++ [47])) in E by (rewrite !zlen_app; change (zlen [47]) with 1; lia).
    replace (pre ++ i_name (e_info x) ++ 47 :: rest) with ((pre ++ i_name (e_info x) ++ [47]) ++ rest) in E by (rewrite <- !app_assoc; reflexivity).
    econstructor; [exact I|exact T|]. eapply IH; [exact EX'| |exact E]. destruct pre; [congruence|discriminate].
Qed.
Section Open.
Variable fs : list Z -> option file.
Hypothesis FS : fs_ok fs.
Lemma openStream_in (u : list Z) f s (rest : list Z) : fs u = Some f -> f_stream f = Some s ->
  exists fuel : nat, lt (length (sl (zlen (u ++ [47])) rest)) fuel /\
  openStream fs (u ++ 47 :: rest) = let* e := open_parts (S fuel) ((u ++ [47]) ++ rest) s (zlen (u ++ [47]) :: sl (zlen (u ++ [47])) rest) in Ret (match e with Some e => Some (Member e) | None => None end).
Proof.
  intros A B. set (url := u ++ 47 :: rest). assert (file_of fs url u f s) as FO by (split; [exact A|]; split; [exact B|]; right; exists rest; reflexivity).
  assert (open fs url = None) as O. { unfold open. destruct FS as (_ & H). destruct (H _ _ _ A B) as (_ & _ & _ & NB). unfold url. rewrite NB. reflexivity. }
  unfold openStream. rewrite O. pose proof (cullName_ok fs FS url) as CO. destruct (cullName fs url) as (parts & cu) eqn:E. cbn [snd] in CO. destruct cu as [(u' & s')|]; [|exfalso; exact (CO _ _ _ FO)].
  destruct CO as (f' & FO'). destruct (P_Reader4.root_unique fs FS _ _ _ _ _ _ _ FO FO') as (-> & -> & ->). destruct (cullName_parts fs url u s) as (g & Eg & _ & EP); [rewrite E; reflexivity|]. rewrite E in EP. cbn [fst] in EP.
  apply app_inv_head in Eg. subst g. rewrite EP. cbn [sl]. change (47 =? 47) with true. cbn iota.
  assert (zlen (u ++ [47]) = zlen u + 1) as -> by (rewrite zlen_app; reflexivity).
  exists (length url). split.
  - unfold url. rewrite app_length. cbn [length]. pose proof (sl_length (zlen u + 1) rest). lia.
  - replace (length url + 1)%nat with (S (length url)) by lia. unfold url. rewrite <- app_assoc. reflexivity.
Qed.
Lemma open_member_ok u f s rest e : fs u = Some f -> f_stream f = Some s -> well_named s -> member_at s rest e -> openStream fs (u ++ 47 :: rest) = Ret (Some (Member e)).
Proof.
  intros A B W M. destruct (openStream_in u f s rest A B) as (fuel & L & ->). rewrite (open_member s rest e M fuel (u ++ [47]) W); [reflexivity|destruct u; discriminate|exact L].
Qed.
Lemma open_sound_ok u f s rest o : fs u = Some f -> f_stream f = Some s -> exact_path s rest -> openStream fs (u ++ 47 :: rest) = Ret (Some o) -> exists e, o = Member e /\ member_at s rest e.
Proof.
  intros A B X. destruct (openStream_in u f s rest A B) as (fuel & L & ->). destruct (open_parts _ _ _ _) as [e| | |] eqn:E; cbn [bind]; try discriminate. destruct e as [e|]; [|discriminate].
  intros EQ. assert (o = Member e) by congruence. subst o. exists e. split; [reflexivity|]. eapply open_sound; [exact X| |exact E]. destruct u; discriminate.
Qed.
Lemma open_none url : (forall u f s, ~ file_of fs url u f s) -> openStream fs url = Ret None.
Proof.
  intros H. unfold openStream. assert (open fs url = None) as ->.
  { destruct (open fs url) as [s|] eqn:O; [|reflexivity]. exfalso. apply open_file in O. destruct O as (f & A & B). apply (H url f s). split; [exact A|]. split; [exact B|]. left. reflexivity. }
  pose proof (cullName_ok fs FS url) as CO. destruct (cullName fs url) as (parts & cu). cbn [snd] in CO. destruct cu as [(u & s)|]; [|reflexivity]. destruct CO as (f & FO). exfalso. exact (H _ _ _ FO).
Qed.
End Open.
