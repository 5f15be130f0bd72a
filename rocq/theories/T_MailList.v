(** C45: the entries of a mail message.  C46: its header fields. *)
From Verif Require Import Base StreamSpec P_Stream KmpSpec SegSpec M_Ar M_Mail P_Mail M_Reader P_Reader2 M_Sub M_Kmp P_Kmp M_Buffered BufferedSpec M_Base64 B64Spec P_Base64 P_Base64b M_StringTerm P_StringTerm ArchiveSpec M_StringStream P_StringStream
  M_MailList MailPartsSpec P_MailList1 P_MailList2 P_MailList3 P_MailList4 P_MailList5 P_MailList6 P_MailList7 P_MailList8 P_MailList9 T_Streams MailSpec T_Mail.

(** the code's limit for header lines (mailinputstream.cpp:471) *)
Definition maxline : Z := 1048576.

(** A message with several parts, nested to any depth, on any conforming stream: nextEntry() lists exactly its parts, in order,
    with their names and contents. *)
Theorem C45_listing_partial : forall (P : Type) (par : ops P Z) nl text ps lim p v fuel,
  newline nl -> message nl maxline text ps ->
  Conforms par text False lim p v -> v_lo v <= 0 -> maxline <= lim -> bytes text -> zlen text <= INT32_MAX -> zlen text + 1 < Z.of_nat fuel ->
  exists m, mail_new par maxline fuel p = Ret m /\ l_st (a_ml m) = Ok /\ lists_parts (mail_provider par maxline fuel) lim 1 ps m.
Proof.
  intros P par nl text ps lim p v fuel Hnl Hmsg HC Hlo Hlim HB HL Hf. unfold maxline in *.
  assert (2 ^ 29 - 258 = 536870654) as E29 by reflexivity.
  destruct (new_ok par text lim (Conforms par text False lim) (conforms_sim par text False lim) nl 1048576 fuel Hnl ltac:(lia) ltac:(lia) Hlim Hf ps p v HC Hlo Hmsg) as (hs & b & t & a & _ & _ & _ & E & Hst & _ & Hi).
  exists a. split; [exact E|]. split; [exact Hst|]. eapply lists_ok; try eassumption; try lia. apply conforms_sim.
Qed.

(** A message without parts *)
Definition single (nl : list Z) (maxl : Z) (text : list Z) (hs : list MailPartsSpec.header) (body : list Z) : Prop :=
  text = headers_text nl hs ++ nl ++ body /\ Forall (header_ok nl maxl) hs /\ leaf_headers hs /\ blank_ok nl body /\ body <> [].
Theorem new_single : forall (P : Type) (par : ops P Z) nl text hs body lim p v fuel,
  newline nl -> single nl maxline text hs body ->
  Conforms par text False lim p v -> v_lo v <= 0 -> maxline <= lim -> bytes text -> zlen text <= INT32_MAX -> zlen text + 1 < Z.of_nat fuel ->
  exists m v', mail_new par maxline fuel p = Ret m /\ l_st (a_ml m) = Ok /\ l_hd (a_ml m) = apply_headers (mkHd (fun _ => []) [] [] [] []) hs /\
    a_cur m = None /\ hd_bound (l_hd (a_ml m)) = [] /\ a_info m = mkInfo [] (-1) 0 0 /\ Conforms par text False lim (l_in (a_ml m)) v' /\ v_pos v' = zlen (headers_text nl hs).
Proof.
  intros P par nl text hs body lim p v fuel Hnl (Et & Hh & Hlf & Hbl & Hne) HC Hlo Hlim HB HL Hf. unfold maxline in *.
  assert (2 ^ 29 - 258 = 536870654) as E29 by reflexivity. unfold mail_new.
  pose proof (zlen_nonneg body). pose proof (nl_len nl Hnl) as Lnl. pose proof (zlen_nonneg (headers_text nl hs)).
  assert (zlen text = zlen (headers_text nl hs) + zlen nl + zlen body) as Lt by (rewrite Et, !zlen_app; lia).
  assert (view_ok text v) as Hv by apply HC. unfold view_ok in Hv.
  destruct (readHeader_ok par text lim (Conforms par text False lim) (conforms_sim par text False lim) nl 1048576 fuel Hnl ltac:(lia) ltac:(lia) Hlim Hf body Hbl Hne hs (mkMl p 0 (mkHd (fun _ => []) [] [] [] []) Ok) fuel) as (m' & E & (Hn & Hfr & _) & Hst & Hd & v' & Hv' & Pv'); [|reflexivity|exact Hh|lia|].
  { split; [cbn [l_next]; lia|]. cbn [l_next l_in]. split; [unfold from; cbn; exact Et|]. exists v. split; [exact HC|]. lia. }
  rewrite E; cbn [bind]. eexists. exists v'. split; [reflexivity|]. cbn [a_ml a_cur a_info]. split; [exact Hst|]. cbn [l_hd] in Hd. split; [exact Hd|]. split; [reflexivity|].
  split; [rewrite Hd; apply eff_bound_leaf; [eapply hok58; exact Hh|exact Hlf]|]. split; [reflexivity|]. split; [exact Hv'|].
  pose proof (from_len text fuel _ _ Hn Hfr Hne). lia.
Qed.
(** one entry, "body".  Its content starts with the line break of the empty line behind the headers. *)
Theorem C45_single_partial : forall (P : Type) (par : ops P Z) nl text hs body lim p v fuel,
  newline nl -> single nl maxline text hs body ->
  Conforms par text False lim p v -> v_lo v <= 0 -> maxline <= lim -> bytes text -> zlen text <= INT32_MAX -> zlen text + 1 < Z.of_nat fuel ->
  exists m m1 i, mail_new par maxline fuel p = Ret m /\ l_st (a_ml m) = Ok /\
    pv_next (mail_provider par maxline fuel) m = Ret (m1, Some i) /\ i_name i = [98;111;100;121] /\ i_size i = -1 /\
    forall h, Forall (call_ok (nl ++ body) lim) h ->
      exists m2 obs, pv_entry (mail_provider par maxline fuel) m1 h = Ret (m2, obs) /\ accepts (nl ++ body) False view0 h obs /\
        exists m3, pv_next (mail_provider par maxline fuel) m2 = Ret (m3, None) /\ pv_status (mail_provider par maxline fuel) m3 = Eof.
Proof.
  intros P par nl text hs body lim p v fuel Hnl Hs HC Hlo Hlim HB HL Hf.
  destruct (new_single P par nl text hs body lim p v fuel Hnl Hs HC Hlo Hlim HB HL Hf) as (m & v' & E & Hst & _ & Hcur & Hbd & Hinf & HC' & Pv').
  destruct Hs as (Et & _ & _ & _ & Hne). pose proof (nl_len nl Hnl) as Lnl. pose proof (zlen_nonneg body). pose proof (zlen_nonneg (headers_text nl hs)).
  assert (zlen text = zlen (headers_text nl hs) + zlen nl + zlen body) as Lt by (rewrite Et, !zlen_app; lia).
  destruct (C06_substream_is_slice P Z par text False lim _ v' (-1) HC') as (s & Es & HCs); [left; lia|].
  change (-1 =? -1) with true in HCs. cbv iota in HCs.
  assert (slice text (v_pos v') (zlen text - v_pos v') = nl ++ body) as Esl.
  { rewrite Pv', Et. rewrite slice_app_r by lia. rewrite Z.sub_diag. replace (zlen (headers_text nl hs ++ nl ++ body) - zlen (headers_text nl hs)) with (zlen (nl ++ body)) by (rewrite !zlen_app; lia). apply slice_all. }
  rewrite Esl in HCs. apply (conforms_fails _ _ _ False) in HCs; [|intros [X|X]; [exact X|lia]].
  exists m. eexists _, _. split; [exact E|]. split; [exact Hst|]. cbn [mail_provider pv_next pv_entry pv_status]. split.
  { unfold mail_next. rewrite Hst, Hbd, Es. cbn [bind]. reflexivity. }
  rewrite Hinf. cbn [i_name i_size]. split; [reflexivity|]. split; [reflexivity|]. intros h Hh.
  destruct HCs as (_ & _ & HCs). destruct (HCs h Hh) as (s' & obs & Er & Ha). unfold mail_entry. cbn [a_cur]. rewrite Er; cbn [bind].
  do 2 eexists. split; [reflexivity|]. split; [exact Ha|]. eexists. split; [unfold mail_next; cbn [a_ml l_st]; reflexivity|reflexivity].
Qed.

(** ** C46: header fields *)
(** white space at the front of a value does not count *)
Definition stripped (s v : list Z) : Prop := exists w, s = w ++ v /\ Forall white w /\ (forall c r, v = c :: r -> ~ white c).
Definition field_is (n : list Z) (hs : list MailPartsSpec.header) (v : list Z) : Prop :=
  match last_named n hs with Some s => stripped s v | None => v = [] end.
Lemma drop_stripped s : stripped s (drop_ws s).
Proof.
  induction s as [|c s IH]; cbn [drop_ws]; [exists []; split; [reflexivity|split; [constructor|discriminate]]|].
  destruct (is_ws c) eqn:E.
  - destruct IH as (w & E1 & E2 & E3). exists (c :: w). split; [cbn; congruence|]. split; [constructor; [|exact E2]|exact E3]. unfold is_ws in E. unfold white. lia.
  - exists []. split; [reflexivity|]. split; [constructor|]. intros d r X. injection X as <- <-. unfold is_ws in E. unfold white. lia.
Qed.
Lemma fields_ok nl maxl hs : Forall (header_ok nl maxl) hs ->
  field_is content_type hs (hd_ct (apply_headers (mkHd (fun _ => []) [] [] [] []) hs)) /\
  forall f, (forall h, In h hs -> named (field_name f) h -> 8 <= zlen (h_name h) + 1 + zlen (h_value h)) ->
    field_is (field_name f) hs (hd_meta (apply_headers (mkHd (fun _ => []) [] [] [] []) hs) f).
Proof.
  intros H. apply hok58 in H. split.
  - unfold field_is. rewrite eff_ct by exact H. destruct (last_named content_type hs); [apply drop_stripped|reflexivity].
  - intros f Hf. unfold field_is. rewrite eff_meta; [|exact H|].
    + destruct (last_named (field_name f) hs); [apply drop_stripped|reflexivity].
    + intros h H1 H2. specialize (Hf h H1 H2). unfold line_of. rewrite zlen_app, zlen_cons. lia.
Qed.
(** their names, in small letters *)
Definition header_of (f : field) : list Z :=
  match f with
  | FSubject => [115;117;98;106;101;99;116] | FTo => [116;111] | FFrom => [102;114;111;109] | FCc => [99;99] | FBcc => [98;99;99]
  | FMessageId => [109;101;115;115;97;103;101;45;105;100] | FInReplyTo => [105;110;45;114;101;112;108;121;45;116;111] | FReferences => [114;101;102;101;114;101;110;99;101;115]
  end.
(** For messages of both kinds, from the moment the object exists: what is given to the decoder for subject(), from(), ... is the value of the
    last header of that name (in any case), and empty if there is none; so is contentType(). *)
Theorem C46_fields_partial : forall (P : Type) (par : ops P Z) nl text hs t lim p v fuel,
  newline nl -> text = headers_text nl hs ++ nl ++ t -> Forall (header_ok nl maxline) hs -> blank_ok nl t -> t <> [] ->
  Conforms par text False lim p v -> v_lo v <= 0 -> maxline <= lim -> zlen text + 1 < Z.of_nat fuel ->
  exists m, mail_new par maxline fuel p = Ret m /\ l_st (a_ml m) = Ok /\
    field_is content_type hs (mail_contentType m) /\
    forall f, (forall h, In h hs -> named (header_of f) h -> 8 <= zlen (h_name h) + 1 + zlen (h_value h)) ->
      field_is (header_of f) hs (mail_field m f).
Proof.
  intros P par nl text hs t lim p v fuel Hnl Et Hh Hbl Hne HC Hlo Hlim Hf. unfold maxline in *.
  assert (2 ^ 29 - 258 = 536870654) as E29 by reflexivity. unfold mail_new.
  pose proof (zlen_nonneg t). pose proof (nl_len nl Hnl) as Lnl. pose proof (zlen_nonneg (headers_text nl hs)).
  assert (zlen text = zlen (headers_text nl hs) + zlen nl + zlen t) as Lt by (rewrite Et, !zlen_app; lia).
  assert (view_ok text v) as Hv by apply HC. unfold view_ok in Hv.
  destruct (readHeader_ok par text lim (Conforms par text False lim) (conforms_sim par text False lim) nl 1048576 fuel Hnl ltac:(lia) ltac:(lia) Hlim Hf t Hbl Hne hs (mkMl p 0 (mkHd (fun _ => []) [] [] [] []) Ok) fuel) as (m' & E & _ & Hst & Hd & _); [|reflexivity|exact Hh|lia|].
  { split; [cbn [l_next]; lia|]. cbn [l_next l_in]. split; [unfold from; cbn; exact Et|]. exists v. split; [exact HC|]. lia. }
  rewrite E; cbn [bind]. eexists. split; [reflexivity|]. cbn [a_ml]. split; [exact Hst|]. unfold mail_contentType, mail_field. cbn [a_ml]. cbn [l_hd] in Hd. rewrite Hd. exact (fields_ok nl _ hs Hh).
Qed.

(** ** A concrete message *)
(** deciding the conditions on given texts *)
Fixpoint foldedb (l : list Z) : bool :=
  match l with
  | [] => true
  | c :: r => if c =? 13 then match r with d :: r1 => (d =? 10) && match r1 with e :: r2 => ((e =? 32) || (e =? 9)) && foldedb r2 | [] => false end | [] => false end
              else negb (c =? 10) && foldedb r
  end.
Lemma foldedb_ok n : forall l, (length l <= n)%nat -> foldedb l = true -> folded [13;10] l.
Proof.
  induction n as [|n IH]; intros l Hl H; [destruct l; [constructor|cbn in Hl; lia]|].
  destruct l as [|c r]; [constructor|]. cbn [length foldedb] in *. destruct (Z.eqb_spec c 13) as [->|Nc].
  - destruct r as [|d r]; [discriminate H|]. destruct (Z.eqb_spec d 10) as [->|]; [|discriminate H]. destruct r as [|e r]; [discriminate H|].
    cbn [andb length] in *. apply andb_true_iff in H. destruct H as (H1 & H2). apply (fd_break [13;10]); [lia|]. apply IH; [lia|exact H2].
  - apply andb_true_iff in H. destruct H as (H & H2). apply fd_char; [lia|lia|]. apply IH; [lia|exact H2].
Qed.
Lemma foldedb_spec l : foldedb l = true -> folded [13;10] l. Proof. apply (foldedb_ok (length l)). lia. Qed.
Lemma scan_no (Q : Z -> Prop) (b : Z -> bool) n : (forall d, 0 <= d -> b d = false -> ~ Q d) ->
  forallb (fun i => negb (b (Z.of_nat i))) (seq 0 n) = true -> forall d, 0 <= d < Z.of_nat n -> ~ Q d.
Proof.
  intros Hb H d Hd. rewrite forallb_forall in H. specialize (H (Z.to_nat d) ltac:(apply in_seq; lia)). rewrite Z2Nat.id in H by lia. apply Hb; [lia|]. destruct (b d); [discriminate H|reflexivity].
Qed.
Lemma no_occ q s m n : m = Z.of_nat n -> forallb (fun i => negb (list_eqb (slice s (Z.of_nat i) (zlen q)) q)) (seq 0 n) = true -> forall d, 0 <= d < m -> ~ occurs_at q s d.
Proof.
  intros -> H. apply (scan_no _ (fun d => list_eqb (slice s d (zlen q)) q)); [|exact H]. intros d Hd Hf (_ & _ & E). rewrite E in Hf.
  destruct (list_eqb_spec q q); congruence.
Qed.
Lemma has_param_q k pre nm v post : map low nm = k -> (post = [] \/ exists r, post = 59 :: r) -> v <> [] -> forallb (fun c => negb (c =? 59)) v = true ->
  forallb (fun c => negb (c =? 0)) (pre ++ nm ++ [61;34] ++ v ++ [34] ++ post) = true ->
  forallb (fun i => negb (ci_prefix k (skipn (Z.to_nat (Z.of_nat i)) (pre ++ nm ++ [61;34] ++ v ++ [34] ++ post)))) (seq 0 (length pre)) = true ->
  has_param k v (pre ++ nm ++ [61;34] ++ v ++ [34] ++ post).
Proof.
  intros H1 H2 H3 H4 H5 H6. exists pre, nm, post. split; [exact H1|]. split; [exact H2|]. split; [exact H3|].
  assert (forall x (l : list Z), forallb (fun c => negb (c =? x)) l = true -> ~ In x l) as HN.
  { intros x l H X. rewrite forallb_forall in H. apply H in X. rewrite Z.eqb_refl in X. discriminate X. }
  split; [apply HN; exact H4|]. split; [apply HN; exact H5|]. split; [left; reflexivity|].
  intros d Hd Ho. assert (0 <= d) as D0 by apply Ho. revert Ho. unfold zlen in Hd.
  apply (scan_no (occurs_ci k (pre ++ nm ++ [61;34] ++ v ++ [34] ++ post)) (fun d => ci_prefix k (skipn (Z.to_nat d) (pre ++ nm ++ [61;34] ++ v ++ [34] ++ post))) (length pre)); [|exact H6|lia].
  clear. intros d D Hf (O1 & O2 & O3). assert (ci_prefix k (skipn (Z.to_nat d) (pre ++ nm ++ [61;34] ++ v ++ [34] ++ post)) = true) as X; [|congruence].
  apply ci_prefix_ok. split; [lia|]. split; [|exact O3]. unfold zlen in *. rewrite skipn_length. lia.
Qed.

Definition nlx : list Z := [13;10].
Definition hdr (n v : list Z) := mkHeader n v.
Definition hs0 := [hdr [70;114;111;109] [32;109;101;64;120;46;111;114;103]; hdr [83;85;66;74;69;67;84] [32;104;105]; hdr [67;111;110;116;101;110;116;45;84;121;112;101] [32;109;117;108;116;105;112;97;114;116;47;109;105;120;101;100;59;13;10;32;98;111;117;110;100;97;114;121;61;34;88;89;34]].
Definition hs1 := [hdr [67;111;110;116;101;110;116;45;84;121;112;101] [32;116;101;120;116;47;112;108;97;105;110;59;32;110;97;109;101;61;34;97;46;116;120;116;34]].
Definition hs2 := [hdr [67;111;110;116;101;110;116;45;84;121;112;101] [32;109;117;108;116;105;112;97;114;116;47;97;108;116;101;114;110;97;116;105;118;101;59;32;98;111;117;110;100;97;114;121;61;34;105;110;34]].
Definition hs3 := [hdr [99;111;110;116;101;110;116;45;116;114;97;110;115;102;101;114;45;101;110;99;111;100;105;110;103] [32;98;97;115;101;54;52]; hdr [67;111;110;116;101;110;116;45;68;105;115;112;111;115;105;116;105;111;110] [32;97;116;116;97;99;104;109;101;110;116;59;32;102;105;108;101;110;97;109;101;61;34;98;34]].
Definition t3 : list Z := [45;45;88;89;45;45;13;10].
Definition t2 : list Z := delimiter [88;89] ++ nlx ++ headers_text nlx hs3 ++ nlx ++ [84;87;70;117] ++ nlx ++ t3.
Definition t1 : list Z := [45;45;105;110;45;45] ++ nlx ++ [101;112;105] ++ nlx ++ t2.
Definition t0 : list Z := delimiter [88;89] ++ nlx ++ headers_text nlx hs2 ++ nlx ++ delimiter [105;110] ++ nlx ++ headers_text nlx [] ++ nlx ++ [60;98;62] ++ nlx ++ t1.
Definition tx : list Z := [112;114;101;97;109;98;108;101] ++ nlx ++ delimiter [88;89] ++ nlx ++ headers_text nlx hs1 ++ nlx ++ [104;101;108;108;111;13;10;119;111;114;108;100] ++ nlx ++ t0.
Definition mail_text : list Z := headers_text nlx hs0 ++ nlx ++ tx.
Definition mail_parts : list mpart :=
  [mkPart (Some [97;46;116;120;116]) false [104;101;108;108;111;13;10;119;111;114;108;100;13;10] 4; mkPart None false [60;98;62;13;10] 4; mkPart (Some [98]) true [77;97;110] 4].

Ltac nin := let X := fresh in intros X; vm_compute in X; repeat (destruct X as [X|X]; [discriminate X|]); exact X.
Ltac hok := split; [do 2 eexists; split; [reflexivity|unfold white; lia]|]; split; [nin|]; split; [nin|]; split; [nin|]; split; [apply foldedb_spec; vm_compute; reflexivity|vm_compute; reflexivity].
Ltac hoks := repeat (apply Forall_cons; [hok|]); apply Forall_nil.
Ltac unf := do 2 eexists; split; [reflexivity|]; first [left; unfold white; lia|right; reflexivity].
Ltac bok := split; [discriminate|]; split; [nin|]; split; [nin|]; split; [nin|]; split; [left; vm_compute; discriminate|vm_compute; reflexivity].
Example C45_case_message : message nlx maxline mail_text mail_parts.
Proof.
  exists hs0, [88;89], tx. split; [reflexivity|]. split; [hoks|].
  assert (forall v l, v = l -> has_param k_boundary [88;89] l -> has_param k_boundary [88;89] v) as _ by (intros; subst; assumption).
  split.
  { exists [hdr [70;114;111;109] [32;109;101;64;120;46;111;114;103]; hdr [83;85;66;74;69;67;84] [32;104;105]], (hdr [67;111;110;116;101;110;116;45;84;121;112;101] [32;109;117;108;116;105;112;97;114;116;47;109;105;120;101;100;59;13;10;32;98;111;117;110;100;97;114;121;61;34;88;89;34]), []. split; [reflexivity|]. split; [reflexivity|]. split.
    - exact (has_param_q k_boundary [32;109;117;108;116;105;112;97;114;116;47;109;105;120;101;100;59;13;10;32] k_boundary [88;89] [] eq_refl (or_introl eq_refl) ltac:(discriminate) eq_refl eq_refl eq_refl).
    - intros h [<-|[<-|[]]]; discriminate. }
  split; [bok|]. split; [left; reflexivity|]. unfold tx.
  apply pt_text; [apply foldedb_spec; reflexivity|intros c E; injection E as <-; lia|discriminate|discriminate|reflexivity|right; unf|].
  apply (pt_part nlx maxline [88;89] [] hs1 [104;101;108;108;111;13;10;119;111;114;108;100] t0 (nlx ++ headers_text nlx hs2 ++ nlx ++ delimiter [105;110] ++ nlx ++ headers_text nlx [] ++ nlx ++ [60;98;62] ++ nlx ++ t1) _ (Some [97;46;116;120;116]) false).
  { hoks. }
  { intros h [<-|[]] _. apply absent_c. vm_compute. reflexivity. }
  { eapply pn_name; [intros s' E; discriminate E|reflexivity|].
    exact (has_param_q k_name [32;116;101;120;116;47;112;108;97;105;110;59;32] k_name [97;46;116;120;116] [] eq_refl (or_introl eq_refl) ltac:(discriminate) eq_refl eq_refl eq_refl). }
  { apply pe_plain. intros s E. discriminate E. }
  { reflexivity. }
  { apply (no_occ _ _ _ 14); vm_compute; reflexivity. }
  { left. reflexivity. }
  { exists [104;101;108;108;111], 119, ([111;114;108;100] ++ nlx ++ t0). split; [reflexivity|]. split; [unfold white; lia|]. split; [reflexivity|discriminate]. }
  unfold t0. apply (pt_open nlx maxline [88;89] [] hs2 [105;110]).
  { hoks. }
  { exists [], (hdr [67;111;110;116;101;110;116;45;84;121;112;101] [32;109;117;108;116;105;112;97;114;116;47;97;108;116;101;114;110;97;116;105;118;101;59;32;98;111;117;110;100;97;114;121;61;34;105;110;34]), []. split; [reflexivity|]. split; [reflexivity|]. split; [|intros h []].
    exact (has_param_q k_boundary [32;109;117;108;116;105;112;97;114;116;47;97;108;116;101;114;110;97;116;105;118;101;59;32] k_boundary [105;110] [] eq_refl (or_introl eq_refl) ltac:(discriminate) eq_refl eq_refl eq_refl). }
  { bok. }
  { left. reflexivity. }
  apply (pt_part nlx maxline [105;110] [[88;89]] [] [60;98;62] t1 ([45;45] ++ nlx ++ [101;112;105] ++ nlx ++ t2) _ None false).
  { constructor. }
  { intros h []. }
  { apply pn_none; intros s' E; discriminate E. }
  { apply pe_plain. intros s E. discriminate E. }
  { reflexivity. }
  { apply (no_occ _ _ _ 5); vm_compute; reflexivity. }
  { left. reflexivity. }
  { exists [60;98;62], 45, ([45;105;110;45;45] ++ nlx ++ [101;112;105] ++ nlx ++ t2). split; [reflexivity|]. split; [unfold white; lia|]. split; [reflexivity|discriminate]. }
  unfold t1. apply (pt_close nlx maxline [105;110] [[88;89]]); [left; unf|].
  apply pt_text; [apply foldedb_spec; reflexivity|intros c E; injection E as <-; lia|discriminate|discriminate|reflexivity|right; unf|].
  unfold t2. apply (pt_part nlx maxline [88;89] [] hs3 [84;87;70;117] t3 [45;45;13;10] _ (Some [98]) true).
  { hoks. }
  { intros h [<-|[<-|[]]] E; discriminate E. }
  { eapply pn_filename; [reflexivity|].
    exact (has_param_q k_filename [32;97;116;116;97;99;104;109;101;110;116;59;32] k_filename [98] [] eq_refl (or_introl eq_refl) ltac:(discriminate) eq_refl eq_refl eq_refl). }
  { apply (pe_base64 _ [32;98;97;115;101;54;52] 1); [reflexivity|nin|]. split; [lia|]. split; [vm_compute; discriminate|reflexivity]. }
  { reflexivity. }
  { apply (no_occ _ _ _ 6); vm_compute; reflexivity. }
  { left. reflexivity. }
  { exists [84;87;70;117], 45, [45;88;89;45;45;13;10]. split; [reflexivity|]. split; [unfold white; lia|]. split; [reflexivity|discriminate]. }
  unfold t3. apply (pt_close nlx maxline [88;89] []); [right; split; reflexivity|]. constructor.
Qed.
(** the theorem applies to it, on a StringStream *)
Example C45_case : exists s m, ss_new (Z.eqb 0) mail_text (zlen mail_text) = Ret s /\ mail_new ss_ops maxline 900 s = Ret m /\
  lists_parts (mail_provider ss_ops maxline 900) INT32_MAX 1 mail_parts m.
Proof.
  destruct (C01_string_stream_contract Z (Z.eqb 0) mail_text (zlen mail_text)) as (s & E & HC & _); [split; [vm_compute; discriminate|apply Z.le_refl]|vm_compute; discriminate|].
  rewrite slice_all in HC.
  exists s. destruct (C45_listing_partial _ ss_ops nlx mail_text mail_parts INT32_MAX s view0 900) as (m & Em & _ & Hl); [left; reflexivity|exact C45_case_message|exact HC|vm_compute; discriminate|vm_compute; discriminate| | | |].
  - unfold bytes. apply Forall_forall. intros c Hc. assert (forallb (fun c => (0 <=? c) && (c <? 256)) mail_text = true) as Hb by (vm_compute; reflexivity). rewrite forallb_forall in Hb. apply Hb in Hc. lia.
  - vm_compute; discriminate.
  - vm_compute; reflexivity.
  - exists m. split; [exact E|]. split; [exact Em|exact Hl].
Qed.
(** ** What the code does *)
(** the entries of a text: names and contents; and the final status *)
Definition reads : list call := [Read 1 0; Read 1 0; Read 1 0; Read 1 0; Read 1 0; Read 1 0].
Definition shown {S} (o : ops S Z) (s : S) : out (list (list Z * list Z) * status) :=
  let* m := mail_new o maxline 200 s in
  let* (m, l) := iterate (mail_provider o maxline 200) [reads;reads;reads;reads] m in
  Ret (map (fun e => (i_name (fst e), concat (map ob_data (snd e)))) l, l_st (a_ml m)).
Definition show (text : list Z) := shown ss_ops (mkSS text (zlen text) 0 Ok).
Example C45_case_run : (let* m := mail_new ss_ops maxline 900 (mkSS mail_text (zlen mail_text) 0 Ok) in
  let* (m, l) := iterate (mail_provider ss_ops maxline 900) [reads;reads;reads;reads] m in Ret (map (fun e => (i_name (fst e), concat (map ob_data (snd e)))) l, l_st (a_ml m))) =
  Ret ([([97;46;116;120;116], [104;101;108;108;111;13;10;119;111;114;108;100;13;10]); ([50], [60;98;62;13;10]); ([98], [77;97;110])], Eof).
Proof. vm_compute. reflexivity. Qed.
(** the line break in front of a delimiter belongs to the delimiter (RFC 2046 5.1.1), but is shown as content of a part that is not encoded *)
Theorem C45_line_break_refuted : show [67;111;110;116;101;110;116;45;84;121;112;101;58;32;120;59;32;98;111;117;110;100;97;114;121;61;88;89;13;10;13;10;45;45;88;89;13;10;13;10;104;101;108;108;111;13;10;45;45;88;89;45;45;13;10] = Ret ([([49], [104;101;108;108;111;13;10])], Eof).
Proof. vm_compute. reflexivity. Qed.
(** a part ends at its boundary even in the middle of a line, and the rest of that line is lost *)
Theorem C45_mid_line_refuted : show [67;111;110;116;101;110;116;45;84;121;112;101;58;32;120;59;32;98;111;117;110;100;97;114;121;61;88;89;13;10;13;10;45;45;88;89;13;10;13;10;115;101;101;32;45;45;88;89;90;46;13;10;109;111;114;101;13;10;45;45;88;89;45;45;13;10] = Ret ([([49], [115;101;101;32])], Eof).
Proof. vm_compute. reflexivity. Qed.
(** a part whose body is one line without an end, as in a message that was cut off, is not listed *)
Theorem C45_cut_off_refuted : show [67;111;110;116;101;110;116;45;84;121;112;101;58;32;120;59;32;98;111;117;110;100;97;114;121;61;88;89;13;10;13;10;45;45;88;89;13;10;13;10;104;101;108;108;111] = Ret ([], Eof) /\
  show [67;111;110;116;101;110;116;45;84;121;112;101;58;32;120;59;32;98;111;117;110;100;97;114;121;61;88;89;13;10;13;10;45;45;88;89;13;10;13;10;104;101;108;108;111;13;10;119;111;114;108;100] = Ret ([([49], [104;101;108;108;111;13;10;119;111;114;108;100])], Eof).
Proof. split; vm_compute; reflexivity. Qed.
(** with LF line ends, the blank line is not seen if the body starts with a space: its first line is lost *)
Theorem C45_blank_line_refuted : show [67;111;110;116;101;110;116;45;84;121;112;101;58;32;120;59;32;98;111;117;110;100;97;114;121;61;88;89;10;10;45;45;88;89;10;10;32;111;110;101;10;116;119;111;10;45;45;88;89;45;45;10] = Ret ([([49], [116;119;111;10])], Eof).
Proof. vm_compute. reflexivity. Qed.
(** file names in the form of RFC 2231 *)
Theorem C45_rfc2231_refuted : show [67;111;110;116;101;110;116;45;84;121;112;101;58;32;120;59;32;98;111;117;110;100;97;114;121;61;88;89;13;10;13;10;45;45;88;89;13;10;67;111;110;116;101;110;116;45;68;105;115;112;111;115;105;116;105;111;110;58;32;120;59;32;102;105;108;101;110;97;109;101;42;61;117;116;102;45;56;39;39;97;13;10;13;10;98;13;10;45;45;88;89;45;45;13;10] = Ret ([([42;61;117;116;102;45;56;39;39;97], [98;13;10])], Eof).
Proof. vm_compute. reflexivity. Qed.
(** if an inner multipart is not closed, the parts behind it are not listed *)
Theorem C45_unclosed_refuted : show [67;111;110;116;101;110;116;45;84;121;112;101;58;32;120;59;32;98;111;117;110;100;97;114;121;61;88;89;13;10;13;10;45;45;88;89;13;10;67;111;110;116;101;110;116;45;84;121;112;101;58;32;121;59;32;98;111;117;110;100;97;114;121;61;97;98;13;10;13;10;45;45;97;98;13;10;13;10;49;13;10;45;45;97;98;13;10;13;10;50;13;10;45;45;88;89;13;10;13;10;51;13;10;45;45;88;89;45;45;13;10] = Ret ([([49], [49;13;10]); ([50], [50;13;10;45;45;88;89;13;10;13;10;51;13;10;45;45;88;89;45;45;13;10])], Eof).
Proof. vm_compute. reflexivity. Qed.
(** an empty body has no entry *)
Theorem C45_empty_body_refuted : show [83;117;98;106;101;99;116;58;32;104;101;108;108;111;13;10;13;10] = Ret ([], Eof) /\ show [83;117;98;106;101;99;116;58;32;104;101;108;108;111;13;10;13;10;120] = Ret ([([98;111;100;121], [13;10;120])], Eof).
Proof. split; vm_compute; reflexivity. Qed.
(** the message is read from position 0 of the stream, wherever the stream is *)
Theorem C45_position_refuted : shown ss_ops (mkSS [83;117;98;106;101;99;116;58;32;104;101;108;108;111;13;10;13;10;83;117;98;106;101;99;116;58;32;120;13;10;13;10;121] 33 18 Ok) = Ret ([([98;111;100;121], [13;10;83;117;98;106;101;99;116;58;32;120;13;10;13;10;121])], Eof).
Proof. vm_compute. reflexivity. Qed.
(** an error of the stream is reported as the end: here every read beyond position [k] fails *)
Definition broken_ops (k : Z) : ops (sstream Z * bool) Z :=
  mkOps _ _ (fun s mn mx => let* (s', n, d) := o_read ss_ops (fst s) mn mx in if k <? o_pos ss_ops s' then Ret ((fst s, true), -2, []) else Ret ((s', snd s), n, d))
    (fun s n => let* (s', r) := o_skip ss_ops (fst s) n in Ret ((s', snd s), r))
    (fun s n => let* (s', r) := o_reset ss_ops (fst s) n in Ret ((s', snd s), r))
    (fun s => o_pos ss_ops (fst s)) (fun s => o_size ss_ops (fst s)) (fun s => if snd s then Error else o_status ss_ops (fst s)).
Theorem C45_error_refuted : let t := [67;111;110;116;101;110;116;45;84;121;112;101;58;32;120;59;32;98;111;117;110;100;97;114;121;61;88;89;13;10;13;10;45;45;88;89;13;10;13;10;49;13;10;45;45;88;89;13;10;13;10;50;13;10;45;45;88;89;45;45;13;10] in
  shown (broken_ops 50) (mkSS t (zlen t) 0 Ok, false) = Ret ([], Eof).
Proof. vm_compute. reflexivity. Qed.
(** a line of more than a megabyte in front of a part: on a StringStream (which ignores min if max is smaller, see C01) the message ends there;
    on a stream that follows the documentation (min counts) the code uses the end of an earlier line with the start of this one *)
Definition min_counts : ops (sstream Z) Z :=
  mkOps _ _ (fun s mn mx => o_read ss_ops s mn (if mx <? mn then mn else mx)) (o_skip ss_ops) (o_reset ss_ops) (o_pos ss_ops) (o_size ss_ops) (o_status ss_ops).
Theorem C45_long_line_refuted : let t := [67;111;110;116;101;110;116;45;84;121;112;101;58;32;120;59;32;98;111;117;110;100;97;114;121;61;88;89;13;10;13;10] ++ repeat 97 (Z.to_nat 1048577) ++ [13;10;45;45;88;89;13;10;13;10;49;13;10;45;45;88;89;45;45;13;10] in
  show t = Ret ([], Eof) /\ shown min_counts (mkSS t (zlen t) 0 Ok) = UB.
Proof. split; vm_compute; reflexivity. Qed.
(** headers of less than 8 characters are ignored *)
Theorem C46_short_header_refuted : exists m, mail_new ss_ops maxline 100 (mkSS [67;99;58;32;97;64;98;13;10;84;111;58;32;109;101;64;98;13;10;13;10;120] 22 0 Ok) = Ret m /\ mail_field m FCc = [] /\ mail_field m FTo = [109;101;64;98].
Proof. eexists. split; [vm_compute; reflexivity|]. split; reflexivity. Qed.
(** ... and what subject(), from(), ... return is the text that the value encodes (C32); [after]: what follows in the buffer *)
Lemma stripped_unique s v w : stripped s v -> stripped s w -> v = w.
Proof.
  intros (a & -> & Ha & Hv). revert w. induction a as [|c a IH]; intros w (b & E & Hb & Hw).
  - destruct b as [|d b]; [exact E|]. cbn in E. inversion Hb; subst. exfalso. eapply Hv; [reflexivity|assumption].
  - inversion Ha; subst. destruct b as [|d b].
    + cbn in E. exfalso. eapply Hw; [symmetry; exact E|assumption].
    + cbn in E. injection E as _ E. inversion Hb; subst. apply IH; [assumption|]. exists b. auto.
Qed.
Theorem C46_decoded_partial : forall (C : Type) (iconv : C -> list Z -> list Z -> C * option (list Z)) (conv : list Z -> list Z -> list Z),
  (forall c enc x, x <> [] -> (match snd (iconv c enc x) with Some d => d | None => x end) = conv enc x) ->
  forall (P : Type) (par : ops P Z) nl text hs t lim p v fuel f s x result,
  newline nl -> text = headers_text nl hs ++ nl ++ t -> Forall (header_ok nl maxline) hs -> blank_ok nl t -> t <> [] ->
  Conforms par text False lim p v -> v_lo v <= 0 -> maxline <= lim -> zlen text + 1 < Z.of_nat fuel ->
  (forall h, In h hs -> named (header_of f) h -> 8 <= zlen (h_name h) + 1 + zlen (h_value h)) ->
  last_named (header_of f) hs = Some s -> stripped s x -> MailSpec.header_text conv x result ->
  exists m, mail_new par maxline fuel p = Ret m /\
    forall c after, exists c', decodedHeaderValue iconv c (mail_field m f ++ after) (zlen (mail_field m f)) = Ret (c', result).
Proof.
  intros C iconv conv Hc P par nl text hs t lim p v fuel f s x result Hnl Et Hh Hbl Hne HC Hlo Hlim Hf H8 Hs Hx Hr.
  destruct (C46_fields_partial P par nl text hs t lim p v fuel Hnl Et Hh Hbl Hne HC Hlo Hlim Hf) as (m & E & _ & _ & Hm).
  exists m. split; [exact E|]. specialize (Hm f H8). unfold field_is in Hm. rewrite Hs in Hm. rewrite (stripped_unique _ _ _ Hm Hx). intros c after. exact (T_Mail.C32_header_partial C iconv conv Hc c x result after Hr).
Qed.
Example C46_case : exists m, mail_new ss_ops maxline 900 (mkSS mail_text (zlen mail_text) 0 Ok) = Ret m /\
  mail_field m FSubject = [104;105] /\ mail_field m FFrom = [109;101;64;120;46;111;114;103] /\ mail_field m FCc = [] /\ mail_contentType m = [109;117;108;116;105;112;97;114;116;47;109;105;120;101;100;59;13;10;32;98;111;117;110;100;97;114;121;61;34;88;89;34] /\
  last_named (header_of FSubject) hs0 = Some [32;104;105] /\ Forall (header_ok nlx maxline) hs0 /\ mail_text = headers_text nlx hs0 ++ nlx ++ tx /\ blank_ok nlx tx.
Proof.
  destruct (mail_new ss_ops maxline 900 (mkSS mail_text (zlen mail_text) 0 Ok)) as [m| | |] eqn:E; [|vm_compute in E; discriminate..].
  exists m. split; [reflexivity|]. vm_compute in E. injection E as <-. split; [reflexivity|]. split; [reflexivity|]. split; [reflexivity|]. split; [reflexivity|]. split; [reflexivity|]. split; [hoks|]. split; [reflexivity|left; reflexivity].
Qed.
