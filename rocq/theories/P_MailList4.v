From Verif Require Import Base StreamSpec P_Stream KmpSpec SegSpec M_Ar M_Mail M_Reader M_Sub M_Kmp P_Kmp M_Buffered M_Base64 B64Spec M_StringTerm P_StringTerm ArchiveSpec M_MailList MailPartsSpec P_MailList1 P_MailList2 P_MailList3.

(** the effect of the headers of a part *)
Lemma absent_c k n : strcasestr k n = None -> absent k n.
Proof. intros H d Hd. destruct (strcasestr_some k n d Hd) as (i & E). congruence. Qed.
Lemma kw_filename : keyword k_filename. Proof. do 2 eexists; split; [reflexivity|lia]. Qed.
Lemma kw_name : keyword k_name. Proof. do 2 eexists; split; [reflexivity|lia]. Qed.
Lemma kw_base64 : keyword k_base64. Proof. do 2 eexists; split; [reflexivity|lia]. Qed.
Lemma low0 c : low c = 0 -> c = 0.
Proof. unfold low. destruct (Z.leb_spec 65 c), (Z.leb_spec c 90); cbn [andb]; lia. Qed.
Lemma no0 nm n : map low nm = n -> ~ In 0 n -> ~ In 0 nm.
Proof. intros <- H X. apply H. apply in_map_iff. exists 0. split; [reflexivity|exact X]. Qed.
Ltac no0 := intros X; repeat (destruct X as [X|X]; [discriminate X|]); exact X.
Lemma hok58 nl maxl hs : Forall (header_ok nl maxl) hs -> Forall (fun h => ~ In 58 (h_name h)) hs.
Proof. intros H. eapply Forall_impl; [|exact H]. intros h (_ & _ & _ & X & _). exact X. Qed.

Definition the_name (hd : headers) : list Z :=
  match value s_filename (hd_cd hd) with [] => value s_name (hd_ct hd) | v => v end.
Definition encoded (hd : headers) : bool := match strcasestr s_base64 (c_str (hd_cte hd)) with Some _ => true | None => false end.
Definition cleared (hd : headers) : headers := mkHd (hd_meta hd) [] [] [] (hd_bound hd).

Lemma name_effect nl maxl hd hs nm : Forall (header_ok nl maxl) hs -> part_name hs nm ->
  the_name (apply_headers (cleared hd) hs) = match nm with Some v => v | None => [] end /\ (forall v, nm = Some v -> v <> []).
Proof.
  intros H Hp. apply hok58 in H. unfold the_name. pose proof (eff_ct (cleared hd) hs H) as Ect. pose proof (eff_cd (cleared hd) hs H) as Ecd.
  assert ((forall s', last_named content_disposition hs = Some s' -> absent k_filename s') -> value s_filename (hd_cd (apply_headers (cleared hd) hs)) = []) as Hno.
  { intros Ha. destruct (last_named content_disposition hs) as [s|].
    - destruct Ecd as (m & Em & ->). apply value_absent. apply (absent_named m content_disposition); [exact Em|exact kw_filename|no58|apply absent_c; vm_compute; reflexivity|apply Ha; reflexivity].
    - rewrite Ecd. reflexivity. }
  inversion Hp as [s v Hl Hpar E|s v Ha Hl Hpar E|Ha Hn E].
  - rewrite Hl in Ecd. destruct Ecd as (m & Em & ->).
    assert (value s_filename (m ++ 58 :: s) = v) as ->.
    { apply value_param. apply (param_named m content_disposition); [exact Em|exact kw_filename|no58|apply absent_c; vm_compute; reflexivity|apply (no0 _ _ Em); no0|exact Hpar]. }
    assert (v <> []) as Hv by (destruct Hpar as (? & ? & ? & _ & _ & Hv & _); exact Hv). split; [destruct v; [congruence|reflexivity]|congruence].
  - rewrite (Hno Ha). rewrite Hl in Ect. rewrite Ect. 
    assert (value s_name (drop_ws s) = v) as -> by (apply value_param, param_drop_ws; [exact kw_name|exact Hpar]).
    assert (v <> []) as Hv by (destruct Hpar as (? & ? & ? & _ & _ & Hv & _); exact Hv). split; [reflexivity|congruence].
  - rewrite (Hno Ha), Ect. split; [|congruence]. destruct (last_named content_type hs) as [s|]; [|reflexivity].
    apply value_absent, absent_drop_ws; [exact kw_name|apply Hn; reflexivity].
Qed.
Lemma encoding_effect nl maxl hd hs enc : Forall (header_ok nl maxl) hs -> part_encoding hs enc -> encoded (apply_headers (cleared hd) hs) = enc.
Proof.
  intros H Hp. apply hok58 in H. unfold encoded. pose proof (eff_cte (cleared hd) hs H) as E.
  inversion Hp as [s d Hl H0 Hocc E'|Ha E'].
  - rewrite Hl in E. destruct E as (m & Em & ->). rewrite c_str_id.
    + destruct (strcasestr_some s_base64 (m ++ 58 :: s) (zlen m + 1 + d)) as (i & ->); [|reflexivity].
      destruct Hocc as (D0 & D1 & D2). pose proof (zlen_nonneg m). split; [lia|]. rewrite zlen_app, zlen_cons. split; [change (zlen s_base64) with (zlen k_base64); lia|].
      transitivity (map low (slice s d (zlen k_base64))); [|exact D2]. f_equal. change (58 :: s) with ([58] ++ s). rewrite app_assoc, slice_app_r by (rewrite zlen_app; change (zlen [58]) with 1; lia).
      f_equal. rewrite zlen_app. change (zlen [58]) with 1. lia.
    + intros X. apply in_app_or in X. destruct X as [X|[X|X]]; [revert X; apply (no0 _ _ Em); no0|discriminate X|exact (H0 X)].
  - destruct (last_named content_transfer_encoding hs) as [s|].
    + destruct E as (m & Em & ->). rewrite strcasestr_none; [reflexivity|]. apply absent_c_str.
      apply (absent_named m content_transfer_encoding); [exact Em|exact kw_base64|no58|apply absent_c; vm_compute; reflexivity|apply Ha; reflexivity].
    + rewrite E. reflexivity.
Qed.
