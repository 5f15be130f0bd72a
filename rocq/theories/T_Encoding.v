(** C30: InputStreamReader and EncodingInputStream.  EncSpec.v says what an encoding is and what is assumed of
    iconv; StreamSpec.v is the contract of a stream. *)
From Verif Require Import Base StreamSpec P_Stream M_StringStream P_StringStream M_Buffered BufferedSpec P_Buffered P_Inflate EncSpec M_Encoding P_Encoding.

Definition e_ops {A St P} (ic : converter A St) (par : ops P Z) : ops (bstream (estate St P) A) A := bs_ops (e_src ic par).

(** The specification is not vague: every byte sequence either is a sequence of characters, written in one
    way, or breaks at one place. *)
Theorem C30_spec_total : forall (A St : Type) (e : encoding A St) maxin maxout s l, encoding_ok e maxin maxout ->
  ((exists us s', converts e s l us s') \/ (exists us, breaks e s l us)) /\
  (forall us us' s1 s2, converts e s l us s1 -> converts e s l us' s2 -> us = us' /\ s1 = s2) /\
  (forall us us', breaks e s l us -> breaks e s l us' -> us = us') /\
  (forall us us' s1, converts e s l us s1 -> ~ breaks e s l us').
Proof.
  intros A St e maxin maxout s l He. split; [eapply converts_or_breaks; [exact He|apply le_n]|]. split; [intros us us' s1 s2; apply (converts_fun e maxin maxout He)|].
  split; [intros us us' H; apply (breaks_fun e s l us H)|intros us us' s1; apply (converts_not_breaks e maxin maxout He)].
Qed.

Section C30.
Context {A St P : Type}.
Variables (e : encoding A St) (ic : converter A St) (par : ops P Z) (c0 : St).

Lemma e_init p v gas full fails lim (content : list A) F maxin maxout :
  encoding_ok e maxin maxout -> Conforms par full fails lim p v -> zlen full <= Z.of_nat gas ->
  bs_init_ok content F (e_SR e full (Conforms par full fails lim) (v_pos v) c0) (e_new c0 true p gas).
Proof.
  intros He HC Hg. assert (HV : view_ok full v) by apply HC. unfold view_ok in HV.
  unfold bs_init_ok, e_new, bs_new; cbn [bs_buf bs_fin bs_src bs_pos bs_st bs_size buf0 b_off b_avail].
  split; [reflexivity|]. split; [reflexivity|]. split; [change (b_size (@buf0 A)) with 0; unfold BUF_LIM; lia|]. split; [reflexivity|].
  split; [|split; [reflexivity|split; [reflexivity|right; left; reflexivity]]].
  split; [reflexivity|]. exists [], [], v. cbn [e_par e_buf e_off e_conv e_gas app]. split; [exact HC|]. split; [constructor|]. split; [reflexivity|]. split; [reflexivity|].
  split; [intros _; exact (eo_nothing _ _ _ He c0)|]. split; [congruence|]. split; [lia|]. lia.
Qed.

(** Valid input: from its current position on the input stream holds a sequence of characters, written as [us].
    The decoding stream keeps the contract of streams with exactly the content [us], wherever characters are cut by the
    chunks of the input, of the 262 byte buffer or of the requests; it only fails if the input fails.
    [maxout <= 1]: every character is written as at most one item, which
    holds for wchar_t (InputStreamReader) but not for a multi-byte target encoding of EncodingInputStream: see below. *)
Theorem C30_valid_partial : forall full fails lim p v gas us maxin maxout,
  encoding_ok e maxin maxout -> converter_ok e maxout ic -> maxin <= 262 -> maxout <= 1 ->
  Conforms par full fails lim p v -> 1 <= lim -> zlen full <= Z.of_nat gas ->
  (exists s', converts e c0 (skipn (Z.to_nat (v_pos v)) full) us s') ->
  Conforms (e_ops ic par) us fails BUF_LIM (e_new c0 true p gas) view0.
Proof.
  intros full fails lim p v gas us maxin maxout He Hic Hmi Hmo HC Hl Hg Hcv.
  assert (HS := e_SrcOK e maxin maxout He ic Hic Hmi Hmo par full fails lim _ (conforms_sim par full fails lim) Hl (v_pos v) us fails c0 (fun H => H) (or_introl Hcv)).
  apply (bs_conforms _ _ _ _ _ HS). exact (e_init p v gas full fails lim us fails maxin maxout He HC Hg).
Qed.
(** Invalid input: it breaks after [us].  Every history of calls returns (no undefined behaviour, no endless loop);
    whatever is handed out is a part of [us]: the observations are those of a failing stream whose content
    starts with [us] and goes on arbitrarily ([ext], so nothing behind [us] is ever handed out); and no
    call ever reports Eof. *)
Theorem C30_invalid_partial : forall full fails lim p v gas us maxin maxout,
  encoding_ok e maxin maxout -> converter_ok e maxout ic -> maxin <= 262 -> maxout <= 1 ->
  Conforms par full fails lim p v -> 1 <= lim -> zlen full <= Z.of_nat gas ->
  breaks e c0 (skipn (Z.to_nat (v_pos v)) full) us ->
  forall l, Forall (call_ok us BUF_LIM) l ->
    exists x' obs, run (e_ops ic par) (e_new c0 true p gas) l = Ret (x', obs) /\
      (forall ext, accepts (us ++ ext) True view0 l obs) /\
      Forall (fun ob => ob_st ob <> Eof) obs.
Proof.
  intros full fails lim p v gas us maxin maxout He Hic Hmi Hmo HC Hl Hg Hbr l Hc.
  assert (forall ext, SrcOK (e_src ic par) (us ++ ext) True (e_SR e full (Conforms par full fails lim) (v_pos v) c0) (e_SE e full (v_pos v) (us ++ ext) c0)) as HS.
  { intros ext. apply (e_SrcOK e maxin maxout He ic Hic Hmi Hmo par full fails lim _ (conforms_sim par full fails lim) Hl (v_pos v) (us ++ ext) True c0 (fun _ => I)).
    right. split; [exact I|]. exists us, ext. split; [exact Hbr|reflexivity]. }
  assert (forall ext, Forall (call_ok (us ++ ext) BUF_LIM) l) as Hc'.
  { intros ext. eapply Forall_impl; [|exact Hc]. intros [mn mx|n|q]; cbn [call_ok]; try tauto. rewrite zlen_app. pose proof (zlen_nonneg ext). lia. }
  assert (forall ext, bs_init_ok (us ++ ext) True (e_SR e full (Conforms par full fails lim) (v_pos v) c0) (e_new c0 true p gas)) as HI.
  { intros ext. exact (e_init p v gas full fails lim (us ++ ext) True maxin maxout He HC Hg). }
  destruct (bs_conforms _ _ _ _ _ (HS []) _ (HI [])) as (_ & _ & HR). destruct (HR l (Hc' [])) as (x' & obs & Er & _).
  exists x', obs. split; [exact Er|]. split.
  - intros ext. destruct (bs_conforms _ _ _ _ _ (HS ext) _ (HI ext)) as (_ & _ & HR2). destruct (HR2 l (Hc' ext)) as (x2 & obs2 & Er2 & Ha).
    change (bs_ops (e_src ic par)) with (e_ops ic par) in Er2, Er. rewrite Er in Er2. injection Er2 as <- <-. exact Ha.
  - eapply (never_eof _ _ _ _ _ (HS []) l); [|exact (bs_init_R _ _ _ _ _ (HI []))|unfold fin_inv; cbn; congruence|exact (Hc' [])|exact Er].
    intros s (_ & sf & H). exact (converts_not_breaks e maxin maxout He _ _ _ _ _ H Hbr).
Qed.
(** in particular every item handed out in answer to a read lies within [us] *)
Theorem C30_nothing_invented : forall full fails lim p v gas us maxin maxout mn mx x' n d,
  encoding_ok e maxin maxout -> converter_ok e maxout ic -> maxin <= 262 -> maxout <= 1 ->
  Conforms par full fails lim p v -> 1 <= lim -> zlen full <= Z.of_nat gas ->
  breaks e c0 (skipn (Z.to_nat (v_pos v)) full) us -> call_ok us BUF_LIM (Read mn mx) ->
  o_read (e_ops ic par) (e_new c0 true p gas) mn mx = Ret (x', n, d) -> 0 < n -> n <= zlen us /\ d = slice us 0 n.
Proof.
  intros full fails lim p v gas us maxin maxout mn mx x' n d He Hic Hmi Hmo HC Hl Hg Hbr Hc Er Hn.
  destruct (C30_invalid_partial full fails lim p v gas us maxin maxout He Hic Hmi Hmo HC Hl Hg Hbr [Read mn mx]) as (x2 & obs & E & Hacc & _); [constructor; [exact Hc|constructor]|].
  cbn [run exec] in E. rewrite Er in E. cbn [bind] in E.
  assert (exists ob, obs = [ob] /\ ob_ret ob = n /\ ob_data ob = d) as (ob & -> & Ho1 & Ho2).
  { destruct (is_error _); cbn [bind] in E; injection E as _ <-; (eexists; split; [reflexivity|]; split; reflexivity). }
  specialize (Hacc []). rewrite app_nil_r in Hacc. cbn [accepts] in Hacc. destruct (is_error (ob_st ob)).
  - destruct Hacc as ((_ & _ & H) & _). lia.
  - destruct Hacc as ((_ & _ & _ & _ & [(_ & H1 & H2 & _)|(H & _)]) & _); [|lia]. cbn [view0 v_pos] in *. rewrite Ho1 in *. rewrite Ho2 in H1. split; [lia|exact H1].
Qed.
(** An encoding iconv does not know: status() is Error at once and every read fails. *)
Theorem C30_unknown_encoding : forall p gas mn mx,
  o_status (e_ops ic par) (e_new c0 false p gas) = Error /\
  o_read (e_ops ic par) (e_new c0 false p gas) mn mx = Ret (e_new c0 false p gas, -2, []).
Proof. intros; split; reflexivity. Qed.
End C30.

(** ** The assumptions are satisfiable: a converter for every encoding *)
Fixpoint greedy {A St} (e : encoding A St) (n : nat) (s : St) (l : list Z) (space : Z) : Z * list A * ires * St :=
  match n with
  | O => (0, [], Done, s)
  | S n => match l with
           | [] => (0, [], Done, s)
           | _ => match e s l with
                  | Invalid => (0, [], Eilseq, s)
                  | Incomplete => (0, [], Einval, s)
                  | Char k u s' => if space <? zlen u then (0, [], E2big, s)
                                   else let '(k', y, r, s2) := greedy e n s' (skipn (Z.to_nat k) l) (space - zlen u) in (k + k', u ++ y, r, s2)
                  end
           end
  end.
Definition greedy_ic {A St} (e : encoding A St) : converter A St := fun s l space => greedy e (length l) s l space.
Definition prefix_closed {A St} (e : encoding A St) : Prop := forall s l k u s', e s l = Char k u s' -> e s (firstn (Z.to_nat k) l) = Char k u s'.
Lemma greedy_ok {A St} (e : encoding A St) maxin maxout : encoding_ok e maxin maxout -> prefix_closed e -> converter_ok e maxout (greedy_ic e).
Proof.
  intros He Hpc s l space k y r sf Hsp. unfold greedy_ic. assert (length l <= length l)%nat as Hn by lia. revert Hn. generalize (length l) at 2 3. intros n. revert s l space k y r sf Hsp.
  induction n as [|n IH]; intros s l space k y r sf Hsp Hn E; cbn [greedy] in E.
  - destruct l; [|cbn in Hn; lia]. injection E as <- <- <- <-. change (zlen (@nil Z)) with 0. change (zlen (@nil A)) with 0. split; [lia|]. split; [lia|]. split; [constructor|reflexivity].
  - destruct l as [|b l].
    + injection E as <- <- <- <-. change (zlen (@nil Z)) with 0. change (zlen (@nil A)) with 0. split; [lia|]. split; [lia|]. split; [constructor|reflexivity].
    + set (L := b :: l) in *. assert (1 <= zlen L) as HL by (unfold L; rewrite zlen_cons; pose proof (zlen_nonneg l); lia).
      destruct (e s L) as [k1 u1 s1| |] eqn:Ee.
      * destruct (eo_char _ _ _ He _ _ _ _ _ Ee) as (Hk1 & Hu1 & Hext). pose proof (zlen_nonneg u1). destruct (Z.ltb_spec space (zlen u1)).
        -- injection E as <- <- <- <-. change (zlen (@nil A)) with 0. split; [lia|]. split; [lia|]. split; [constructor|lia].
        -- destruct (greedy e n s1 (skipn (Z.to_nat k1) L) (space - zlen u1)) as [[[k2 y2] r2] s2] eqn:Eg. injection E as <- <- <- <-.
           assert (zlen (skipn (Z.to_nat k1) L) = zlen L - k1) as Zs by (apply zlen_skipn; lia).
           apply IH in Eg; [|lia|unfold zlen in *; lia]. destruct Eg as (G1 & G2 & G3 & G4).
           rewrite zlen_app. split; [lia|]. split; [lia|].
           assert (skipn (Z.to_nat (k1 + k2)) L = skipn (Z.to_nat k2) (skipn (Z.to_nat k1) L)) as Hsk by (rewrite skipn_skipn'; f_equal; lia).
           split; [|rewrite Hsk; destruct r2; [lia|exact G4|destruct G4; split; [lia|assumption]|lia]].
           apply cv_char with (k := k1) (s' := s1).
           ++ assert (firstn (Z.to_nat (k1 + k2)) L = firstn (Z.to_nat k1) L ++ firstn (Z.to_nat k2) (skipn (Z.to_nat k1) L)) as ->.
              { rewrite <- (firstn_skipn (Z.to_nat k1) L) at 1. rewrite firstn_app. rewrite firstn_length. replace (Nat.min (Z.to_nat k1) (length L)) with (Z.to_nat k1) by (unfold zlen in *; lia).
                rewrite firstn_firstn. replace (Nat.min (Z.to_nat (k1 + k2)) (Z.to_nat k1)) with (Z.to_nat k1) by lia. f_equal. f_equal. lia. }
              apply Hpc in Ee. destruct (eo_char _ _ _ He _ _ _ _ _ Ee) as (_ & _ & Hx). apply Hx.
           ++ rewrite skipn_firstn_comm. replace (Z.to_nat (k1 + k2) - Z.to_nat k1)%nat with (Z.to_nat k2) by lia. exact G3.
      * injection E as <- <- <- <-. change (zlen (@nil A)) with 0. split; [lia|]. split; [lia|]. split; [constructor|]. split; [lia|exact Ee].
      * injection E as <- <- <- <-. change (zlen (@nil A)) with 0. split; [lia|]. split; [lia|]. split; [constructor|]. exact Ee.
Qed.
(** 16 bit big endian code units without surrogates, decoded to code points *)
Definition ucs2 : encoding Z unit := fun _ l =>
  match l with
  | [] => Incomplete
  | a :: t => if (216 <=? a) && (a <=? 223) then Invalid else match t with [] => Incomplete | b :: _ => Char 2 [256 * a + b] tt end
  end.
Lemma ucs2_ok : encoding_ok ucs2 2 1.
Proof.
  split.
  - intros [] l k u [] E. destruct l as [|a [|b l]]; cbn [ucs2] in E; [discriminate| |]; destruct (_ && _) eqn:Ea; try discriminate. injection E as <- <-.
    rewrite !zlen_cons. pose proof (zlen_nonneg l). split; [lia|]. split; [vm_compute; discriminate|]. intros r. cbn [app ucs2]. rewrite Ea. reflexivity.
  - intros [] l E r. destruct l as [|a l]; [discriminate|]. cbn [ucs2 app] in *. destruct (_ && _); [reflexivity|]. destruct l; discriminate.
  - intros [] l E. destruct l as [|a [|b l]]; [vm_compute; reflexivity|vm_compute; reflexivity|]. cbn [ucs2] in E. destruct (_ && _); discriminate.
  - intros []; reflexivity.
Qed.
Lemma ucs2_pc : prefix_closed ucs2.
Proof.
  intros [] l k u [] E. destruct l as [|a [|b l]]; cbn [ucs2] in E; [discriminate| |]; destruct (_ && _) eqn:Ea; try discriminate. injection E as <- <-.
  change (firstn (Z.to_nat 2) (a :: b :: l)) with [a; b]. cbn [ucs2]. rewrite Ea. reflexivity.
Qed.
(** "aé" after three other bytes, read item by item; then broken by a surrogate, and by the end *)
Example C30_case : converter_ok ucs2 1 (greedy_ic ucs2) /\ converts ucs2 tt [0;97;0;233] [97;233] tt /\ breaks ucs2 tt [0;97;216;0] [97] /\ breaks ucs2 tt [0;97;0] [97] /\
  Conforms ss_ops [9;9;9;0;97;0;233] False INT32_MAX (mkSS [9;9;9;0;97;0;233] 7 3 Ok) (mkView 3 3 3) /\
  exists x, run (e_ops (greedy_ic ucs2) ss_ops) (e_new tt true (mkSS [9;9;9;0;97;0;233] 7 3 Ok) 9) [Read 1 1; Read 3 3; Reset 1; Read 1 0] =
    Ret (x, [mkObs 1 [97] 1 (-1) Ok; mkObs 1 [233] 2 2 Eof; mkObs 1 [] 1 2 Ok; mkObs 1 [233] 2 2 Eof]).
Proof.
  split; [apply (greedy_ok _ 2); [exact ucs2_ok|exact ucs2_pc]|]. split; [|split; [|split; [|split]]].
  - apply (cv_char ucs2 tt [0;97;0;233] 2 [97] tt [233] tt); [reflexivity|]. apply (cv_char ucs2 tt [0;233] 2 [233] tt [] tt); [reflexivity|constructor].
  - apply (br_char ucs2 tt [0;97;216;0] 2 [97] tt []); [reflexivity|]. apply br_here; [vm_compute; congruence|right; reflexivity].
  - apply (br_char ucs2 tt [0;97;0] 2 [97] tt []); [reflexivity|]. apply br_here; [vm_compute; congruence|left; reflexivity].
  - apply (sim_conforms _ _ _ _ (ss_R [9;9;9;0;97;0;233])); [apply ss_sim; vm_compute; discriminate|].
    unfold ss_R, view_ok. change (zlen [9;9;9;0;97;0;233]) with 7. cbn. repeat split; try congruence; try lia.
  - eexists; vm_compute; reflexivity.
Qed.

(** A stateful encoding: byte 14 shifts to pairs of bytes, byte 15 back to single bytes *)
Definition shifted : encoding Z bool := fun two l =>
  match l with
  | [] => Incomplete
  | a :: t => if a =? 14 then Char 1 [] true
              else if a =? 15 then Char 1 [] false
              else if (two : bool) then match t with [] => Incomplete | b :: _ => Char 2 [256 * a + b] true end
              else Char 1 [a] false
  end.
Lemma shifted_ok : encoding_ok shifted 2 1.
Proof.
  split.
  - intros s l k u s' E. destruct l as [|a l]; [discriminate|]. cbn [shifted] in E. rewrite zlen_cons. pose proof (zlen_nonneg l).
    destruct (a =? 14) eqn:E1; [injection E as <- <- <-; split; [lia|]; split; [vm_compute; discriminate|]; intros r; cbn [app shifted]; rewrite E1; reflexivity|].
    destruct (a =? 15) eqn:E2; [injection E as <- <- <-; split; [lia|]; split; [vm_compute; discriminate|]; intros r; cbn [app shifted]; rewrite E1, E2; reflexivity|].
    destruct s; [destruct l as [|b l]; [discriminate|]; pose proof (zlen_nonneg l); rewrite zlen_cons in *|]; injection E as <- <- <-; (split; [lia|]);
      (split; [vm_compute; discriminate|]); intros r; cbn [app shifted]; rewrite E1, E2; reflexivity.
  - intros s l E r. destruct l as [|a l]; [discriminate|]. cbn [shifted] in E. destruct (a =? 14); [discriminate|]. destruct (a =? 15); [discriminate|]. destruct s; [destruct l|]; discriminate.
  - intros s l E. destruct l as [|a l]; [vm_compute; reflexivity|]. cbn [shifted] in E. destruct (a =? 14); [discriminate|]. destruct (a =? 15); [discriminate|].
    destruct s; [destruct l; [vm_compute; reflexivity|]|]; discriminate.
  - intros s; reflexivity.
Qed.
Lemma shifted_pc : prefix_closed shifted.
Proof.
  intros s l k u s' E. destruct l as [|a l]; [discriminate|]. cbn [shifted] in E.
  destruct (a =? 14) eqn:E1; [injection E as <- <- <-; cbn [Z.to_nat Pos.to_nat Pos.iter_op firstn shifted]; change (Pos.to_nat 1) with 1%nat; cbn [firstn shifted]; rewrite E1; reflexivity|].
  destruct (a =? 15) eqn:E2; [injection E as <- <- <-; change (Z.to_nat 1) with 1%nat; cbn [firstn shifted]; rewrite E1, E2; reflexivity|].
  destruct s; [destruct l as [|b l]; [discriminate|]|]; injection E as <- <- <-; change (Z.to_nat 1) with 1%nat; change (Z.to_nat 2) with 2%nat; cbn [firstn shifted]; rewrite E1, E2; reflexivity.
Qed.
(** "a", then in the other state two characters, then "b" in the first state again, read one by one: the shift
    state is kept between the calls of fillBuffer; a single byte in the other state breaks the text *)
Example C30_stateful_case : converter_ok shifted 1 (greedy_ic shifted) /\ converts shifted false [97;14;48;33;48;34;15;98] [97;12321;12322;98] false /\
  breaks shifted false [97;14;48;33;48] [97;12321] /\
  exists x, run (e_ops (greedy_ic shifted) ss_ops) (e_new false true (mkSS [97;14;48;33;48;34;15;98] 8 0 Ok) 9) [Read 1 1; Read 1 1; Reset 1; Read 2 2; Read 2 2] =
    Ret (x, [mkObs 1 [97] 1 (-1) Ok; mkObs 1 [12321] 2 (-1) Ok; mkObs 1 [] 1 (-1) Ok; mkObs 2 [12321;12322] 3 (-1) Ok; mkObs 1 [98] 4 4 Eof]).
Proof.
  split; [apply (greedy_ok _ 2); [exact shifted_ok|exact shifted_pc]|]. split; [|split].
  - apply (cv_char shifted false [97;14;48;33;48;34;15;98] 1 [97] false [12321;12322;98]); [reflexivity|]. apply (cv_char shifted false [14;48;33;48;34;15;98] 1 [] true [12321;12322;98]); [reflexivity|].
    apply (cv_char shifted true [48;33;48;34;15;98] 2 [12321] true [12322;98]); [reflexivity|]. apply (cv_char shifted true [48;34;15;98] 2 [12322] true [98]); [reflexivity|].
    apply (cv_char shifted true [15;98] 1 [] false [98]); [reflexivity|]. apply (cv_char shifted false [98] 1 [98] false []); [reflexivity|constructor].
  - apply (br_char shifted false [97;14;48;33;48] 1 [97] false [12321]); [reflexivity|]. apply (br_char shifted false [14;48;33;48] 1 [] true [12321]); [reflexivity|].
    apply (br_char shifted true [48;33;48] 2 [12321] true []); [reflexivity|]. apply br_here; [vm_compute; congruence|left; reflexivity].
  - eexists; vm_compute; reflexivity.
Qed.

(** ** EncodingInputStream with a target encoding that writes a character as several bytes *)
(** Latin-1 to UTF-8 *)
Definition latin1 : encoding Z unit := fun _ l =>
  match l with [] => Incomplete | a :: _ => if (a <? 0) || (255 <? a) then Invalid else Char 1 (if a <? 128 then [a] else [192 + a / 64; 128 + a mod 64]) tt end.
Lemma latin1_ok : encoding_ok latin1 1 2.
Proof.
  split.
  - intros [] l k u [] E. destruct l as [|a l]; cbn [latin1] in E; [discriminate|]. destruct (_ || _) eqn:Ea; [discriminate|]. injection E as <- <-.
    rewrite zlen_cons. pose proof (zlen_nonneg l). split; [lia|]. split; [destruct (a <? 128); vm_compute; discriminate|]. intros r. cbn [app latin1]. rewrite Ea. reflexivity.
  - intros [] l E r. destruct l as [|a l]; [discriminate|]. cbn [latin1 app] in *. destruct (_ || _); [reflexivity|discriminate].
  - intros [] l E. destruct l as [|a l]; [vm_compute; reflexivity|]. cbn [latin1] in E. destruct (_ || _); discriminate.
  - intros []; reflexivity.
Qed.
Lemma latin1_pc : prefix_closed latin1.
Proof.
  intros [] l k u [] E. destruct l as [|a l]; cbn [latin1] in E; [discriminate|]; destruct (_ || _) eqn:Ea; try discriminate. injection E as <- <-.
  change (firstn (Z.to_nat 1) (a :: l)) with [a]. cbn [latin1]. rewrite Ea. reflexivity.
Qed.
(** When the bytes of a character do not fit, decode returns [space] instead of the number of bytes written
    (encodinginputstream.cpp:114-118): read(1) hands out a byte that was never written ... *)
Theorem C30_multibyte_refuted : exists (e : encoding Z unit) ic input us,
  encoding_ok e 1 2 /\ converter_ok e 2 ic /\ converts e tt input us tt /\
  run (e_ops ic ss_ops) (e_new tt true (mkSS input (zlen input) 0 Ok) 9) [Read 1 1] = UB.
Proof.
  exists latin1, (greedy_ic latin1), [233], [195;169]. split; [exact latin1_ok|]. split; [apply (greedy_ok _ 1); [exact latin1_ok|exact latin1_pc]|].
  split; [|vm_compute; reflexivity].
  apply (cv_char latin1 tt [233] 1 [195;169] tt [] tt); [reflexivity|constructor].
Qed.
(** ... and, as nothing was consumed, the next fillBuffer reads again and writes behind the 262 byte buffer. *)
Lemma latin1_repeat n : converts latin1 tt (repeat 233 n) (concat (repeat [195;169] n)) tt.
Proof.
  induction n as [|n IH]; [constructor|]. cbn [repeat concat]. apply cv_char with (k := 1) (s' := tt); [reflexivity|exact IH].
Qed.
Theorem C30_charbuf_overflow_refuted : exists (e : encoding Z unit) ic input us s' n d err,
  encoding_ok e 1 2 /\ converter_ok e 2 ic /\ converts e tt input us tt /\ Forall (fun b => 0 <= b < 256) input /\
  let s := mkE (mkSS input (zlen input) 0 Ok) true 0 [] tt 9 in
  e_fill ic ss_ops s 1 = Ret (s', n, d, err) /\ e_fill ic ss_ops s' 1 = UB.
Proof.
  exists latin1, (greedy_ic latin1), (repeat 233 263), (concat (repeat [195;169] 263)).
  destruct (e_fill (greedy_ic latin1) ss_ops (mkE (mkSS (repeat 233 263) (zlen (repeat 233 263)) 0 Ok) true 0 [] tt 9) 1) as [[[[s' n] d] err]| | |] eqn:E; [|vm_compute in E; discriminate..].
  exists s', n, d, err. split; [exact latin1_ok|]. split; [apply (greedy_ok _ 1); [exact latin1_ok|exact latin1_pc]|]. split; [apply latin1_repeat|].
  split; [|split; [exact E|]].
  - apply Forall_forall. intros b Hb. apply repeat_spec in Hb. lia.
  - vm_compute in E. injection E as <- _ _ _. vm_compute. reflexivity.
Qed.
