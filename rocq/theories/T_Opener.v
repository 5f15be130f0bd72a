(** C52: FileStreamOpener answers with what is in the file system. *)
From Verif Require Import Base StreamSpec M_Buffered BufferedSpec P_Buffered M_File P_File M_Ar ArchiveSpec M_Opener T_Streams.

Lemma c_str_id u : ~ In 0 u -> c_str u = u.
Proof. induction u as [|c u IH]; intros H; [reflexivity|]. cbn [c_str]. destruct (Z.eqb_spec c 0) as [->|]; [exfalso; apply H; left; reflexivity|]. f_equal. apply IH. intros Q; apply H; right; exact Q. Qed.
Lemma rfind_ok : forall u i f,
  match rfind u i f with
  | Some p => (f = Some p /\ ~ In 47 u) \/ exists a b, u = a ++ 47 :: b /\ ~ In 47 b /\ p = i + zlen a
  | None => f = None /\ ~ In 47 u
  end.
Proof.
  induction u as [|c u IH]; intros i f; cbn [rfind]; [destruct f; [left|]; split; auto|]. specialize (IH (i + 1) (if c =? 47 then Some i else f)). destruct (Z.eqb_spec c 47) as [->|N].
  - destruct (rfind u (i + 1) (Some i)) as [p|]; [|destruct IH; discriminate]. right. destruct IH as [(E & H)|(a & b & -> & H & ->)].
    + injection E as <-. exists [], u. split; [reflexivity|]. split; [exact H|]. change (zlen (@nil Z)) with 0. lia.
    + exists (47 :: a), b. split; [reflexivity|]. split; [exact H|]. rewrite zlen_cons. lia.
  - destruct (rfind u (i + 1) f) as [p|].
    + destruct IH as [(E & H)|(a & b & -> & H & ->)]; [left; split; [exact E|intros [Q|Q]; [congruence|contradiction]]|]. right. exists (c :: a), b. split; [reflexivity|]. split; [exact H|]. rewrite zlen_cons. lia.
    + destruct IH as (E & H). split; [exact E|]. intros [Q|Q]; [congruence|contradiction].
Qed.
(** the last component of a path *)
Definition last_component (url name : list Z) : Prop := ~ In 47 name /\ (url = name \/ exists dir, url = dir ++ 47 :: name).

(** stat answers 0 exactly if the file exists, and then with its type, size, time and the last component of its path.
    For urls without NUL: C52_nul_refuted *)
Theorem C52_stat_partial : forall fs url e, ~ In 0 url ->
  match fs url with
  | None => opener_stat fs url e = (-1, e)
  | Some n => exists name, opener_stat fs url e = (0, mkInfo name (n_size n) (n_mtime n) (n_type n)) /\ last_component url name
  end.
Proof.
  intros fs url e H. unfold opener_stat. rewrite (c_str_id _ H). destruct (fs url) as [n|]; [|reflexivity]. pose proof (rfind_ok url 0 None) as R. eexists. split; [reflexivity|]. destruct (rfind url 0 None) as [p|].
  - destruct R as [(Q & _)|(a & b & -> & Hb & ->)]; [discriminate|]. assert (skipn (Z.to_nat (0 + zlen a + 1)) (a ++ 47 :: b) = b) as ->. { replace (Z.to_nat (0 + zlen a + 1)) with (length (a ++ [47])) by (rewrite app_length; unfold zlen; cbn; lia). change (a ++ 47 :: b) with (a ++ [47] ++ b). rewrite app_assoc, skipn_app, skipn_all, Nat.sub_diag. reflexivity. }
    split; [exact Hb|right; exists a; reflexivity].
  - split; [apply R|left; reflexivity].
Qed.
Lemma last_component_unique url a b : last_component url a -> last_component url b -> a = b.
Proof.
  assert (forall d1 d2 a b, ~ In 47 a -> ~ In 47 b -> d1 ++ 47 :: a = d2 ++ 47 :: b -> a = b) as K.
  { induction d1 as [|c d1 IH]; intros [|d d2] a' b' Ha Hb E; cbn in E.
    - injection E as ->. reflexivity.
    - injection E as _ ->. exfalso. apply Ha. apply in_or_app. right; left; reflexivity.
    - injection E as _ <-. exfalso. apply Hb. apply in_or_app. right; left; reflexivity.
    - injection E as _ E. eapply IH; eassumption. }
  intros (Ha & [->|(d1 & ->)]) (Hb & [E|(d2 & E)]).
  - exact E.
  - exfalso. apply Ha. rewrite E. apply in_or_app. right; left; reflexivity.
  - exfalso. apply Hb. rewrite <- E. apply in_or_app. right; left; reflexivity.
  - eapply K; eassumption.
Qed.
(** a url with a NUL: stat is asked about one file, the name is that of another *)
Theorem C52_nul_refuted :
  ~ forall fs url e n, (forall p, fs p <> None -> p = [97]) -> opener_stat fs url e = (0, n) -> last_component [97] (i_name n).
Proof.
  intros H. destruct (H (fun p => if list_eqb p [97] then Some (mkNode 2 5 0 None) else None) [97; 0; 98] (mkInfo [] (-1) 0 0) (mkInfo [97; 0; 98] 5 0 2)) as (_ & [Q|(d & Q)]).
  - intros p Hp. destruct (list_eqb p [97]) eqn:E; [|congruence]. unfold list_eqb in E. destruct (list_eq_dec _ _ _); [assumption|discriminate].
  - reflexivity.
  - discriminate.
  - cbn in Q. destruct d as [|? [|? ?]]; discriminate.
Qed.
(** openStream gives a stream with exactly the bytes of the file; NULL exactly if the file cannot be opened *)
Theorem C52_open : forall fs url, ~ In 0 url ->
  match fs url with
  | Some (mkNode _ _ _ (Some (bytes, seek, fault))) => seek = zlen bytes \/ seek = 0 \/ seek = -1 ->
      exists x, opener_open fs url = Ret (Some (existT _ x (bs_ops (file_src bytes fault)))) /\
        Conforms (bs_ops (file_src bytes fault)) bytes (exists p n, fault p n = true) BUF_LIM x view0 /\
        (fault = (fun _ _ => false) -> Conforms (bs_ops (file_src bytes fault)) bytes False BUF_LIM x view0)
  | _ => opener_open fs url = Ret None
  end.
Proof.
  intros fs url H. unfold opener_open. rewrite (c_str_id _ H). destruct (fs url) as [[t s m [[[bytes seek] fault]|]]|]; [|reflexivity|reflexivity]. intros Hs.
  destruct (C21_file bytes fault seek 1048576 Hs ltac:(change (2 ^ 30) with 1073741824; lia)) as (x & E & C1 & C2). exists x. rewrite E. cbn [bind]. split; [|split; assumption].
  assert (bs_st x = Ok) as ->; [|reflexivity]. unfold file_open in E. cbv zeta in E. revert E.
  destruct (_ && _); [intros Q; injection Q as <-; reflexivity|]. destruct (if _ <=? _ then _ else _) as [b| | |]; cbn [bind]; try discriminate. intros Q. 
  unfold setMinBufSize in Q. destruct (makeSpace _ _) as [[w z]| | |]; cbn [bind] in Q; try discriminate. injection Q as <-. reflexivity.
Qed.
Example C52_case : let fs := fun p => if list_eqb p [47;97;47;98] then Some (mkNode 2 3 1000 (Some ([1;2;3], 3, fun _ _ => false))) else None in
  opener_stat fs [47;97;47;98] (mkInfo [] (-1) 0 0) = (0, mkInfo [98] 3 1000 2) /\ exists x, opener_open fs [47;97;47;98] = Ret (Some (existT _ x (bs_ops (file_src [1;2;3] (fun _ _ => false))))) /\ Conforms (bs_ops (file_src [1;2;3] (fun _ _ => false))) [1;2;3] False BUF_LIM x view0.
Proof.
  intros fs. split; [reflexivity|]. assert (~ In 0 [47;97;47;98]) as N by (cbn; lia). pose proof (C52_open fs [47;97;47;98] N) as H. change (fs [47;97;47;98]) with (Some (mkNode 2 3 1000 (Some ([1;2;3], 3, fun _ _ : Z => false)))) in H. cbv beta iota in H. destruct (H ltac:(left; reflexivity)) as (x & E & _ & C). exists x. split; [exact E|apply C; reflexivity].
Qed.
