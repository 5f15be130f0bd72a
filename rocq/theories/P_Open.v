From Verif Require Import Base StreamSpec P_Stream ArchiveSpec M_StringStream P_StringStream M_Sub M_Buffered BufferedSpec P_Buffered P_BufInv
  M_Text TextSpec KmpSpec M_Inflate InflateSpec P_Inflate T_Inflate M_Lzma LzmaSpec P_Lzma T_Lzma M_Detect DetectSpec P_Detect M_Open OpenSpec.

Lemma conforms_lim {P A} (par : ops P A) content fails lim lim' p v : lim' <= lim -> Conforms par content fails lim p v -> Conforms par content fails lim' p v.
Proof.
  intros Hl (H1 & H2 & H3). split; [exact H1|]. split; [exact H2|]. intros l Hf. apply H3. eapply Forall_impl; [|exact Hf].
  intros [mn mx|n|q]; cbn [call_ok]; lia.
Qed.

(** a stream at its beginning; [rep]: and it is repeatable *)
Definition good (rep : bool) (L : Z) {P} (par : ops P Z) (p : P) (content : list Z) : Prop :=
  exists v, Conforms par content False L p v /\ v_pos v = 0 /\ (rep = true -> content = [] \/ exists I, repeatable par I /\ I p).
Definition nxt {P} (par : ops P Z) (p : P) (N : Z) : Prop :=
  forall m, 1 <= m <= N -> exists p3 n3 c3, o_read par p m 0 = Ret (p3, n3, c3) /\ N <= n3.

Lemma peek_ok rep L {P} (par : ops P Z) p content m : good rep L par p content -> 1024 <= L -> 1 <= m <= 1024 ->
  exists p' n c, peek par p m = Ret (p', n, c) /\ good rep L par p' content /\ (rep = true -> nxt par p' n) /\ (content <> [] -> o_status par p' = Ok) /\
    (content = [] /\ c = [] /\ n = -1 \/ 0 < n <= zlen content /\ c = slice content 0 n /\ (m <= n \/ n = zlen content)) /\
    (forall N, nxt par p N -> 1 <= m <= N -> N <= n).
Proof.
  intros (v & HC & Hv & HG) HL Hm. assert (HS := conforms_sim par content False L). unfold peek.
  assert (HV := sim_view _ _ _ _ _ HS _ _ HC). unfold view_ok in HV. assert (HP := sim_pos _ _ _ _ _ HS _ _ HC).
  destruct (sim_read _ _ _ _ _ p v m 0 HS HC) as (p1 & n & c & E & [(G & HC1)|(_ & [] & _)]); [cbn; unfold INT32_MAX, INT32_MIN; lia|]. rewrite E; cbn [bind].
  assert (exists p2 r v2, o_reset par p1 0 = Ret (p2, r) /\ Conforms par content False L p2 v2 /\ v_pos v2 = 0 /\ (content <> [] -> o_status par p2 = Ok) /\ r = 0 /\ o_status par p2 <> Error) as (p2 & r & v2 & E2 & HC2 & Hv2 & Hst & Hr & Hne).
  { destruct (sim_reset _ _ _ _ _ p1 _ 0 HS HC1) as (p2 & r & E2 & [(G2 & HC2)|(_ & [])]); [lia|].
    exists p2, r; eexists. split; [exact E2|]. split; [exact HC2|].
    assert (v_lo (next_view v (Read m 0) (observe par p1 n c)) <= 0 <= v_hi (next_view v (Read m 0) (observe par p1 n c))) as Hin.
    { cbn [next_view observe ob_ret]. destruct (Z.ltb_spec 0 n); cbn [v_lo v_hi]; lia. }
    assert (v_pos (next_view (next_view v (Read m 0) (observe par p1 n c)) (Reset 0) (observe par p2 r [])) = 0) as Hz.
    { cbn [next_view observe ob_ret]. destruct (Z.ltb_spec 0 n); cbn [v_lo v_hi]; (destruct (Z.leb_spec (v_pos v) 0); [|lia]); [destruct (Z.leb_spec 0 (v_pos v + n)); [|lia]|destruct (Z.leb_spec 0 (v_pos v)); [|lia]]; reflexivity. }
    split; [exact Hz|]. split.
    - intros Hne. destruct G2 as (G21 & G22 & _). cbn [observe ob_st] in *. destruct (o_status par p2) eqn:Es; [reflexivity| |congruence].
      specialize (G22 eq_refl). rewrite Hz in G22. exfalso. apply Hne. apply zlen_0_nil. lia.
    - destruct G2 as (G1 & _ & _ & _ & G2). cbn [observe ob_ret ob_st] in *. destruct G2 as (G3 & _). rewrite Hz in G3. split; [exact G3|]. intros X; exact (G1 X). }
  rewrite E2; cbn [bind]. exists p2, n, c. split; [reflexivity|].
  rewrite Hv in HP.
  assert (content = [] /\ c = [] /\ n = -1 \/ 0 < n <= zlen content /\ c = slice content 0 n /\ (m <= n \/ n = zlen content)) as Hn.
  { destruct G as (_ & _ & _ & _ & [(Hn & Hd & Hle & _ & Hmin)|(Hn & Hd & C & _)]); cbn [observe ob_ret ob_data] in *.
    - right. rewrite Hv in *. split; [lia|]. split; [exact Hd|]. lia.
    - left. rewrite Hv in C. split; [apply zlen_0_nil; lia|]. split; [exact Hd|exact Hn]. }
  assert (forall N, nxt par p N -> 1 <= m <= N -> N <= n) as Hlast.
  { intros N HNx HmN. destruct (HNx m HmN) as (p3 & n3 & c3 & E3 & H3). rewrite E in E3. injection E3 as _ <- _. exact H3. }
  destruct Hn as [Hn|Hn].
  { split; [exists v2; split; [exact HC2|]; split; [exact Hv2|]; left; tauto|]. split; [intros _ m' Hm'; lia|]. auto. }
  destruct rep.
  2: { split; [exists v2; split; [exact HC2|]; split; [exact Hv2|discriminate]|]. split; [discriminate|]. auto. }
  specialize (HG eq_refl). destruct HG as [->|(I & HG & HI)]; [change (zlen (@nil Z)) with 0 in Hn; lia|].
  destruct (HG p m 0 p1 n c p2 r HI Hm ltac:(lia) E ltac:(lia)) as (HI2 & HP2 & HN); [rewrite HP; exact E2|lia|apply Hne|].
  split; [exists v2; split; [exact HC2|]; split; [exact Hv2|]; right; exists I; auto|].
  split. { intros _ m' Hm'. destruct (HN m' 0 Hm' ltac:(lia)) as (p3 & c3 & E3). exists p3, n, c3. split; [exact E3|lia]. }
  auto.
Qed.

(** ** buffered streams hand out everything they have *)
Section Tail.
Context {S : Type}.
(** the common second half of read() *)
Definition tail_read (x1 : bstream S Z) (max : Z) : out (bstream S Z * Z * list Z) :=
    if is_error (bs_st x1) then Ret (x1, -2, []) else
    let* (b, nread, d) := buf_read (bs_buf x1) max in
    let pos := bs_pos x1 + nread in
    if (bs_size x1 <? pos) && (0 <? bs_size x1)
    then Ret (mkBS b (bs_fin x1) (bs_src x1) (bs_size x1) pos Error, -2, [])
    else if (match bs_st x1 with Ok => true | _ => false end) && (b_avail b =? 0) && bs_fin x1
    then Ret (mkBS b (bs_fin x1) (bs_src x1) (if bs_size x1 =? -1 then pos else bs_size x1) pos Eof,
              if nread =? 0 then -1 else nread, d)
    else Ret (mkBS b (bs_fin x1) (bs_src x1) (bs_size x1) pos (bs_st x1), nread, d).
Definition cap (max n : Z) : Z := if (max <=? 0) || (n <? max) then n else max.
Lemma tail_repeatable x1 x' n c x2 r m' mx mx' : small_buf (bs_buf x1) -> tail_read x1 mx = Ret (x', n, c) -> 1 <= n -> bs_reset x' (bs_pos x1) = Ret (x2, r) ->
  r = bs_pos x1 -> 1 <= m' <= n -> mx' <= 0 /\ mx <= 0 \/ n <= mx' /\ (mx <= 0 \/ mx' <= mx) ->
  bs_pos x2 = bs_pos x1 /\ bs_st x2 = Ok /\ (b_avail (bs_buf x2) <? m') = false /\ exists x3 c3, tail_read x2 mx' = Ret (x3, n, c3).
Proof.
  intros Hsm H1 Hn1 H2 Hp Hm Hmx. unfold tail_read in H1. destruct (is_error (bs_st x1)) eqn:Ee; [injection H1 as _ <- _; lia|].
  destruct (buf_read (bs_buf x1) mx) as [[[b k] d]| | |] eqn:Eb; cbn [bind] in H1; try discriminate. cbv zeta in H1.
  assert (k = cap mx (b_avail (bs_buf x1)) /\ b = mkBuf (b_mem (bs_buf x1)) (b_off (bs_buf x1) + k) (b_avail (bs_buf x1) - k) /\ 0 <= k /\ 0 <= b_avail (bs_buf x1) /\ 0 <= b_off (bs_buf x1) /\ b_off (bs_buf x1) + b_avail (bs_buf x1) <= b_size (bs_buf x1) /\ all_some (slice (b_mem (bs_buf x1)) (b_off (bs_buf x1)) k) = Some d) as (K1 & K2 & K3 & K3' & K4 & K5 & K6).
  { unfold buf_read in Eb. match type of Eb with (if ?c then _ else _) = _ => destruct c eqn:Ec end; [discriminate|]. cbv zeta in Eb. fold (cap mx (b_avail (bs_buf x1))) in Eb.
    destruct (all_some (slice (b_mem (bs_buf x1)) (b_off (bs_buf x1)) (cap mx (b_avail (bs_buf x1))))) eqn:Ea; [|discriminate]. injection Eb as <- <- <-.
    apply negb_false_iff in Ec. rewrite !andb_true_iff, !Z.leb_le in Ec. split; [reflexivity|]. split; [reflexivity|]. split; [unfold cap; destruct (Z.leb_spec mx 0), (Z.ltb_spec (b_avail (bs_buf x1)) mx); cbn [orb]; lia|]. split; [lia|]. split; [lia|]. split; [lia|exact Ea]. }
  assert (k <= b_avail (bs_buf x1)) as K7 by (rewrite K1; unfold cap; destruct (Z.leb_spec mx 0), (Z.ltb_spec (b_avail (bs_buf x1)) mx); cbn [orb]; lia).
  assert (n = k /\ bs_buf x' = b /\ bs_pos x' = bs_pos x1 + k /\ bs_st x' <> Error /\ bs_fin x' = bs_fin x1 /\ ((bs_size x' <? bs_pos x1 + k) && (0 <? bs_size x')) = false) as (N1 & N2 & N3 & N4 & N5 & N6).
  { destruct ((bs_size x1 <? bs_pos x1 + k) && (0 <? bs_size x1)) eqn:Es; [injection H1 as _ <- _; lia|].
    match type of H1 with (if ?c then _ else _) = _ => destruct c eqn:Ec end.
    - injection H1 as <- Hn _. cbn [bs_buf bs_pos bs_st bs_size bs_fin]. split; [destruct (k =? 0); lia|]. split; [reflexivity|]. split; [reflexivity|]. split; [discriminate|]. split; [reflexivity|].
      destruct (Z.eqb_spec (bs_size x1) (-1)); [|exact Es]. rewrite Z.ltb_irrefl. reflexivity.
    - injection H1 as <- <- _. cbn [bs_buf bs_pos bs_st bs_size bs_fin]. split; [reflexivity|]. split; [reflexivity|]. split; [reflexivity|]. split; [destruct (bs_st x1); [discriminate|discriminate|discriminate Ee]|]. split; [reflexivity|exact Es]. }
  unfold bs_reset in H2. destruct (Z.ltb_spec (bs_pos x1) 0) as [|Hneg]; [discriminate|].
  assert (bs_pos x' - bs_pos x1 = n) as Hd by lia. rewrite Hd in H2. rewrite N2, K2 in H2. cbn [b_off b_avail b_mem] in H2. cbv zeta in H2.
  assert (wrap32 n = n) as Hw by (apply wrap32_id; unfold small_buf, BUF_LIM in Hsm; unfold INT32_MIN, INT32_MAX; lia). rewrite Hw in H2.
  assert (x2 = mkBS (mkBuf (b_mem (bs_buf x1)) (b_off (bs_buf x1) + k - n) (b_avail (bs_buf x1) - k + n)) (bs_fin x') (bs_src x') (bs_size x') (bs_pos x' - n) Ok) as ->.
  { assert ((n <=? b_off (bs_buf x1) + k) && (- n <=? b_avail (bs_buf x1) - k) = true) as Ht by lia.
    destruct (bs_st x'); [| |congruence]; rewrite Ht in H2; injection H2 as <- _; reflexivity. }
  cbn [bs_st bs_buf b_avail bs_pos]. split; [lia|]. split; [reflexivity|]. split; [apply Z.ltb_ge; lia|].
  unfold tail_read. cbn [bs_st is_error bs_buf bs_size bs_pos bs_fin bs_src].
  replace (b_off (bs_buf x1) + k - n) with (b_off (bs_buf x1)) by lia. replace (b_avail (bs_buf x1) - k + n) with (b_avail (bs_buf x1)) by lia.
  unfold buf_read. cbn [b_off b_avail b_mem]. unfold b_size. cbn [b_mem]. fold (b_size (bs_buf x1)).
  replace (negb _) with false.
  2: { symmetry. apply negb_false_iff. rewrite !andb_true_iff, !Z.leb_le. lia. }
  cbv zeta. fold (cap mx' (b_avail (bs_buf x1))).
  assert (cap mx' (b_avail (bs_buf x1)) = n) as ->.
  { rewrite N1. revert Hmx. rewrite N1, K1. unfold cap. destruct (Z.leb_spec mx 0), (Z.ltb_spec (b_avail (bs_buf x1)) mx), (Z.leb_spec mx' 0), (Z.ltb_spec (b_avail (bs_buf x1)) mx'); cbn [orb]; lia. }
  rewrite N1, K6. cbn [bind]. rewrite <- N1. replace (bs_pos x' - n + n) with (bs_pos x1 + k) by lia. rewrite N6.
  clear H1 H2. destruct (Z.eqb_spec n 0); [lia|].
  match goal with |- context [if ?c then _ else Ret (_, n, d)] => destruct c end; eexists _, _; reflexivity.
Qed.
Lemma tail_cap (y x1 : bstream S Z) n c mx1 : tail_read y mx1 = Ret (x1, n, c) -> 1 <= n -> 0 < mx1 -> n <= mx1.
Proof.
  unfold tail_read, buf_read. intros E1 Hn Hm. destruct (is_error (bs_st y)); [injection E1 as _ <- _; lia|].
  match type of E1 with context [negb ?c] => destruct c end; [|discriminate]. cbn [negb] in E1. cbv iota zeta in E1.
  match type of E1 with context [all_some ?l] => destruct (all_some l) end; [|discriminate]. cbn [bind] in E1.
  assert ((if (mx1 <=? 0) || (b_avail (bs_buf y) <? mx1) then b_avail (bs_buf y) else mx1) <= mx1) as Hk by (destruct (Z.leb_spec mx1 0), (Z.ltb_spec (b_avail (bs_buf y)) mx1); cbn [orb]; lia).
  repeat match type of E1 with (if ?c then _ else _) = _ => destruct c end; injection E1 as _ <- _; try lia. destruct (_ =? 0); lia.
Qed.
End Tail.

Lemma bs_repeatable {S} (src : source S Z) : repeatable (bs_ops src) (fun x => small_buf (bs_buf x)).
Proof.
  intros x m mx x1 n c x2 r HI Hm Hmx E1 Hn E2 Hr _. cbn [bs_ops o_read o_reset o_pos] in *.
  assert (binv (fun _ => True) x1) as HB1 by (eapply (read_inv src (fun _ => True)); [auto| | |exact E1]; [split; [exact Logic.I|exact HI]|unfold BUF_LIM; lia]).
  assert (binv (fun _ => True) x2) as HB2 by (eapply reset_inv; [exact HB1|exact E2]).
  split; [apply HB2|]. unfold bs_read in E1. destruct (bs_st x) eqn:Es; [|injection E1 as _ <- _; lia|injection E1 as _ <- _; lia].
  cbv zeta in E1. apply bind_ret in E1 as (y & Ey & E1).
  assert (small_buf (bs_buf y) /\ bs_pos y = bs_pos x) as (Hy & Hyp).
  { destruct (negb (bs_fin x) && (b_avail (bs_buf x) <? m)); [|injection Ey as <-; auto].
    unfold writeToBuffer in Ey. cbv zeta in Ey. apply bind_ret in Ey as ((((b & s) & st) & nw) & Ew & Ey). injection Ey as <-. cbn [bs_buf bs_pos]. split; [|reflexivity].
    eapply (wtb_inv src (fun _ => True)) in Ew; [apply Ew|auto|unfold BUF_LIM; lia|exact Logic.I|exact HI|reflexivity]. }
  rewrite <- Hyp in E2, Hr |- *.
  set (mx1 := if mx <? m then 0 else mx) in *.
  assert (mx <= 0 /\ mx1 = 0 \/ m <= mx /\ mx1 = mx) as Hmx1 by (unfold mx1; destruct (Z.ltb_spec mx m); lia).
  assert (forall m' mx', 1 <= m' <= n -> mx' <= 0 /\ mx <= 0 \/ n <= mx' /\ (mx <= 0 \/ mx' <= mx) ->
    bs_pos x2 = bs_pos y /\ exists p3 c3, bs_read src x2 m' mx' = Ret (p3, n, c3)) as Hall.
  { intros m' mx' Hm' Hmx'. set (mx2 := if mx' <? m' then 0 else mx').
    assert (mx' <= 0 /\ mx2 = 0 \/ m' <= mx' /\ mx2 = mx') as Hmx2 by (unfold mx2; destruct (Z.ltb_spec mx' m'); lia).
    destruct (tail_repeatable y x1 n c x2 r m' mx1 mx2 Hy E1 Hn E2 Hr Hm' ltac:(lia)) as (T0 & T1 & T2 & x3 & c3 & T3). split; [exact T0|].
    unfold bs_read. rewrite T1. cbv zeta. fold mx2. rewrite T2, andb_false_r. cbn [bind]. exists x3, c3. exact T3. }
  destruct (Hall n (if mx <=? 0 then 0 else Z.max n mx) ltac:(lia)) as (Hpos & _).
  { destruct (Z.leb_spec mx 0); [lia|]. right. split; [lia|]. right. pose proof (tail_cap y x1 n c mx1 E1 Hn ltac:(lia)). lia. }
  split; [exact Hpos|]. intros m' mx' Hm' Hmx'. apply Hall; assumption.
Qed.
Lemma l_repeatable {D P} (cd : lzcodec D) (par : ops P Z) : repeatable (l_ops cd par) (fun x => small_buf (bs_buf x)).
Proof.
  intros x m mx x1 n c x2 r HI Hm Hmx E1 Hn E2 Hr _. cbn [l_ops o_read o_reset o_pos] in *.
  assert (forall b : bstream (lstate D P) Z, bs_reset x1 (bs_pos x) = Ret (b, r) -> b_size (bs_buf b) = b_size (bs_buf x1)) as Hrs.
  { intros b. unfold bs_reset. destruct (_ <? 0); [discriminate|]. cbv zeta. destruct (bs_st x1); try (intros H; injection H as <- _; reflexivity); (destruct (_ && _); intros H; injection H as <- _; reflexivity). }
  specialize (Hrs _ E2).
  unfold l_read in E1. destruct (bs_st x) eqn:Es; [|injection E1 as _ <- _; lia|injection E1 as _ <- _; lia].
  cbv zeta in E1. apply bind_ret in E1 as (y & Ey & E1).
  assert (small_buf (bs_buf y) /\ bs_pos y = bs_pos x) as (Hy & Hyp).
  { destruct (negb (bs_fin x) && (b_avail (bs_buf x) <? m)); [|injection Ey as <-; auto]. apply bind_ret in Ey as (z & Ez & Ey). injection Ey as <-. cbn [bs_buf bs_pos].
    unfold writeToBuffer in Ez. cbv zeta in Ez. apply bind_ret in Ez as ((((b & s) & st) & nw) & Ew & Ez). injection Ez as <-. cbn [bs_buf bs_pos]. split; [|reflexivity].
    eapply (wtb_inv (l_src cd par) (fun _ => True)) in Ew; [apply Ew|auto|unfold BUF_LIM; lia|exact Logic.I|exact HI|reflexivity]. }
  assert (b_size (bs_buf x1) = b_size (bs_buf y)) as Hb.
  { clear - E1. destruct (is_error (bs_st y)); [injection E1 as <- _ _; reflexivity|]. apply bind_ret in E1 as (((b & k) & dd) & H2 & H0).
    assert (b_size b = b_size (bs_buf y)) as Hb.
    { unfold buf_read in H2. match type of H2 with (if ?c then _ else _) = _ => destruct c end; [discriminate|]. cbv zeta in H2.
      match type of H2 with context [all_some ?l] => destruct (all_some l) end; [|discriminate]. injection H2 as <- _ _. reflexivity. }
    repeat match type of H0 with (if ?c then _ else _) = _ => destruct c end; injection H0 as <- _ _; exact Hb. }
  split; [unfold small_buf in *; lia|]. rewrite <- Hyp in E2, Hr |- *.
  set (mx1 := if mx <? m then 0 else mx) in *.
  assert (mx <= 0 /\ mx1 = 0 \/ m <= mx /\ mx1 = mx) as Hmx1 by (unfold mx1; destruct (Z.ltb_spec mx m); lia).
  assert (forall m' mx', 1 <= m' <= n -> mx' <= 0 /\ mx <= 0 \/ n <= mx' /\ (mx <= 0 \/ mx' <= mx) ->
    bs_pos x2 = bs_pos y /\ exists p3 c3, l_read cd par x2 m' mx' = Ret (p3, n, c3)) as Hall.
  { intros m' mx' Hm' Hmx'. set (mx2 := if mx' <? m' then 0 else mx').
    assert (mx' <= 0 /\ mx2 = 0 \/ m' <= mx' /\ mx2 = mx') as Hmx2 by (unfold mx2; destruct (Z.ltb_spec mx' m'); lia).
    destruct (tail_repeatable y x1 n c x2 r m' mx1 mx2 Hy E1 Hn E2 Hr Hm' ltac:(lia)) as (T0 & T1 & T2 & x3 & c3 & T3). split; [exact T0|].
    unfold l_read. rewrite T1. cbv zeta. fold mx2. rewrite T2, andb_false_r. cbn [bind]. exists x3, c3. exact T3. }
  destruct (Hall n (if mx <=? 0 then 0 else Z.max n mx) ltac:(lia)) as (Hpos & _).
  { destruct (Z.leb_spec mx 0); [lia|]. right. split; [lia|]. right. pose proof (tail_cap y x1 n c mx1 E1 Hn ltac:(lia)). lia. }
  split; [exact Hpos|]. intros m' mx' Hm' Hmx'. apply Hall; assumption.
Qed.
Lemma ss_repeatable : repeatable (@ss_ops Z) (fun s => ss_pos s <= ss_size s <= INT32_MAX).
Proof.
  intros x m mx x1 n c x2 r HI Hm Hmx E1 Hn E2 Hr _. cbn [ss_ops o_read o_reset o_pos] in *.
  assert (ss_data x2 = ss_data x /\ ss_size x2 = ss_size x /\ ss_pos x2 = ss_pos x) as (H1 & H2 & H3).
  { assert (ss_data x1 = ss_data x /\ ss_size x1 = ss_size x) as (Q1 & Q2).
    { unfold ss_read in E1. cbv zeta in E1. repeat match type of E1 with (if ?c then _ else _) = _ => destruct c end; try discriminate; injection E1 as <- _ _; split; reflexivity. }
    unfold ss_reset in E2. cbv zeta in E2. injection E2 as <- <-. 
    repeat match goal with |- context [if ?c then _ else _] => destruct c end; cbn [ss_data ss_size ss_pos] in *; auto. }
  split; [lia|]. split; [exact H3|]. intros m' mx' Hm' Hmx'.
  unfold ss_read in *. rewrite H1, H2, H3. cbv zeta in *. destruct (Z.eqb_spec (ss_size x - ss_pos x) 0); [injection E1 as _ <- _; lia|].
  match type of E1 with (if ?c then _ else _) = _ => destruct c eqn:Ec end; [|discriminate]. injection E1 as _ En _.
  assert (0 <= ss_pos x) as Hp0 by lia.
  assert (wrap32 (ss_size x - ss_pos x) = ss_size x - ss_pos x) as Hw by (apply wrap32_id; unfold INT32_MIN, INT32_MAX in *; lia).
  assert ((if (ss_size x - ss_pos x <? mx') || (mx' <? 1) then wrap32 (ss_size x - ss_pos x) else mx') = n) as E.
  { rewrite Hw. revert En. rewrite Hw. destruct (Z.ltb_spec (ss_size x - ss_pos x) mx), (Z.ltb_spec mx 1), (Z.ltb_spec (ss_size x - ss_pos x) mx'), (Z.ltb_spec mx' 1); cbn [orb]; lia. }
  rewrite E. rewrite En in Ec. rewrite Ec. eexists _, _. reflexivity.
Qed.
(** so a stream on a part of another one is repeatable if that is *)
Definition sub_inv {P} (par : ops P Z) (I : P -> Prop) (s : sub P) : Prop :=
  I (su_par s) /\ o_pos par (su_par s) = su_off s + su_pos s /\ 0 <= su_off s /\ 0 <= su_pos s /\ (su_size s = -1 \/ 0 <= su_size s - su_pos s <= INT32_MAX).
Lemma sub_repeatable {P} (par : ops P Z) I : repeatable par I -> repeatable (sub_ops par) (sub_inv par I).
Proof.
  intros HR s m mx s1 n c s2 r (I1 & I2 & I3 & I4 & I5) Hm Hmx E1 Hn E2 Hr Hst. cbn [sub_ops o_read o_reset o_pos o_status] in *.
  assert (exists m1 mx1, sub_read_body par s m1 mx1 = Ret (s1, n, c) /\ 1 <= m1 <= m /\ (mx1 <= 0 \/ m1 <= mx1) /\
    (su_size s = -1 /\ m1 = m /\ mx1 = mx \/ su_size s <> -1 /\ m1 = Z.min m (su_size s - su_pos s) /\ 0 < su_size s - su_pos s /\ mx1 = (if (mx <? m1) || (su_size s - su_pos s <? mx) then su_size s - su_pos s else mx))) as (m1 & mx1 & E & Hm1 & Hmx1 & Hcs).
  { unfold sub_read in E1. destruct (Z.eqb_spec (su_size s) (-1)) as [Hs|Hs]; [exists m, mx; split; [exact E1|]; split; [lia|]; split; [exact Hmx|]; left; auto|].
    cbv zeta in E1. destruct (Z.eqb_spec (su_size s - su_pos s) 0); [injection E1 as _ <- _; lia|].
    assert (wrap32 (su_size s - su_pos s) = su_size s - su_pos s) as Hw by (apply wrap32_id; unfold INT32_MIN, INT32_MAX in *; lia). rewrite Hw in E1.
    eexists _, _. split; [exact E1|]. destruct (Z.ltb_spec (su_size s - su_pos s) m) as [X|X].
    - split; [lia|]. split; [destruct (Z.ltb_spec mx (su_size s - su_pos s)), (Z.ltb_spec (su_size s - su_pos s) mx); cbn [orb]; lia|]. right. split; [exact Hs|]. split; [lia|]. split; [lia|reflexivity].
    - split; [lia|]. split; [destruct (Z.ltb_spec mx m), (Z.ltb_spec (su_size s - su_pos s) mx); cbn [orb]; lia|]. right. split; [exact Hs|]. split; [lia|]. split; [lia|reflexivity]. }
  clear E1. unfold sub_read_body in E. apply bind_ret in E as (((p1 & k) & d) & Er & E).
  destruct (negb ((mx1 <? m1) || (k <=? mx1))) eqn:Eab; [discriminate|].
  destruct (Z.ltb_spec k (-1)) as [|Hk1]; [injection E as _ <- _; lia|].
  assert (n = k /\ c = d /\ su_par s1 = p1 /\ su_off s1 = su_off s /\ su_pos s1 = su_pos s + k /\
    (su_size s1 = su_size s /\ m1 <= k \/ su_size s = -1 /\ su_size s1 = su_pos s + k /\ k < m1)) as (-> & -> & S1 & S2 & S3 & S4).
  { destruct (Z.ltb_spec k m1).
    - destruct (Z.eqb_spec (su_size s) (-1)); [|injection E as _ <- _; lia]. destruct (Z.ltb_spec 0 k); [|injection E as _ <- _; lia]. injection E as <- <- <-. cbn. auto 10.
    - injection E as <- <- <-. cbn. auto 10. }
  unfold sub_reset in E2. destruct (Z.ltb_spec (su_pos s) 0); [lia|]. rewrite S1, S2 in E2. apply bind_ret in E2 as ((p2 & r2) & Ers & E2).
  destruct (Z.ltb_spec r2 (su_off s)); [injection E2 as <- Hx; cbn [su_st] in Hst; congruence|]. injection E2 as <- Hx. cbn [su_pos su_par su_off su_size su_st] in *.
  replace (su_pos s + su_off s) with (o_pos par (su_par s)) in Ers by lia.
  destruct (HR (su_par s) m1 mx1 p1 k d p2 r2 I1 ltac:(lia) Hmx1 Er Hn Ers ltac:(lia) Hst) as (J1 & J2 & J3).
  assert (k <= mx1 \/ mx1 <= 0) as Hkm by (apply negb_false_iff, orb_true_iff in Eab; destruct Eab as [X|X]; lia).
  assert (mx <= 0 \/ mx1 <= mx) as Hmm.
  { destruct Hcs as [(_ & _ & ->)|(_ & _ & _ & ->)]; [lia|]. destruct (Z.ltb_spec mx m1), (Z.ltb_spec (su_size s - su_pos s) mx); cbn [orb]; lia. }
  assert (su_size s <> -1 -> 0 < mx1 <= su_size s - su_pos s) as Hml.
  { intros Hs. destruct Hcs as [(? & _)|(_ & Hmm1 & ? & ->)]; [congruence|]. destruct (Z.ltb_spec mx m1), (Z.ltb_spec (su_size s - su_pos s) mx); cbn [orb]; lia. }
  assert (su_size s = -1 -> mx1 = mx) as Hmu by (intros Hs; destruct Hcs as [(_ & _ & ->)|(? & _)]; [reflexivity|congruence]).
  split.
  { split; [exact J1|]. cbn [su_pos su_par su_off su_size]. split; [lia|]. split; [lia|]. split; [lia|]. destruct S4 as [(-> & _)|(_ & -> & ?)]; [|right; unfold INT32_MAX; lia].
    replace (r2 - su_off s) with (su_pos s) by lia. exact I5. }
  split; [lia|]. intros m' mx' Hm' Hmx'. unfold sub_read. cbn [su_size su_pos su_par].
  replace (r2 - su_off s) with (su_pos s) by lia.
  assert (forall m2 mx2 s', su_par s' = p2 -> 1 <= m2 <= k -> mx2 <= 0 /\ mx1 <= 0 \/ k <= mx2 /\ (mx1 <= 0 \/ mx2 <= mx1) -> exists p3 c3, sub_read_body par s' m2 mx2 = Ret (p3, k, c3)) as Hbody.
  { intros m2 mx2 s' Hs' Hm2 Hmx2. destruct (J3 m2 mx2 Hm2 Hmx2) as (p3 & c3 & E3). unfold sub_read_body. rewrite Hs', E3; cbn [bind].
    assert ((mx2 <? m2) || (k <=? mx2) = true) as -> by (destruct (Z.ltb_spec mx2 m2), (Z.leb_spec k mx2); cbn [orb]; (reflexivity || lia)). cbn [negb].
    destruct (Z.ltb_spec k (-1)); [lia|]. destruct (Z.ltb_spec k m2); [lia|]. eexists _, _. reflexivity. }
  destruct S4 as [(-> & Hk)|(Hs & -> & Hk)].
  - destruct (Z.eqb_spec (su_size s) (-1)) as [Hs|Hs].
    + apply Hbody; [reflexivity|exact Hm'|]. rewrite (Hmu Hs). exact Hmx'.
    + cbv zeta. specialize (Hml Hs). destruct (Z.eqb_spec (su_size s - su_pos s) 0); [lia|]. destruct (Z.ltb_spec (su_size s - su_pos s) m'); [lia|].
      assert (wrap32 (su_size s - su_pos s) = su_size s - su_pos s) as Hw by (apply wrap32_id; unfold INT32_MIN, INT32_MAX in *; lia). rewrite Hw.
      apply Hbody; [reflexivity|exact Hm'|]. right. destruct Hcs as [(? & _)|(_ & Hmm1 & Hl & Hmx1')]; [congruence|].
      destruct (Z.ltb_spec mx m1), (Z.ltb_spec (su_size s - su_pos s) mx), (Z.ltb_spec mx' m'), (Z.ltb_spec (su_size s - su_pos s) mx'); cbn [orb] in *; lia.
  - cbv zeta. destruct (Z.eqb_spec (su_pos s + k) (-1)); [lia|]. replace (su_pos s + k - su_pos s) with k by lia. destruct (Z.eqb_spec k 0); [lia|]. destruct (Z.ltb_spec k m'); [lia|].
    assert (wrap32 k = k) as Hw by (apply wrap32_id; unfold INT32_MIN, INT32_MAX in *; lia). rewrite Hw.
    apply Hbody; [reflexivity|exact Hm'|]. right. rewrite (Hmu Hs) in *.
    destruct (Z.ltb_spec mx' m'), (Z.ltb_spec k mx'); cbn [orb]; lia.
Qed.
Section Steps.
Context {R Dg Db Dl : Type}.
Variables (cg : codec Dg) (cb : codec Db) (cl : lzcodec Dl) (fg fb : format) (fl : lzformat).
Variables (DIg : Dg -> list Z -> list Z -> Prop) (DIb : Db -> list Z -> list Z -> Prop) (DIl : Dl -> list Z -> list Z -> Prop).
Hypotheses (Hcg : codec_ok fg cg DIg) (Hcb : codec_ok fb cb DIb) (Hcl : lzma_ok fl cl DIl).
Variables (bufsize : Z) (gas : nat) (L : Z).
Hypothesis (Hb : 1 <= bufsize <= BUF_LIM).
Hypothesis (HL : 1024 <= L <= BUF_LIM).
Let N := Z.of_nat gas.
Let cmp := compressed fb fg fl N.
Definition goodx (rep : bool) (x : anystream R) (content : list Z) : Prop := match x with Any par p _ => good rep L par p content end.
Definition nxtx (x : anystream R) (n : Z) : Prop := match x with Any par p _ => nxt par p n end.

Lemma cmp_bytes ls c x : cmp ls c x -> bytes c /\ zlen c <= N.
Proof. intros H; destruct H; split; assumption. Qed.
Lemma z_new_good (k : T_Inflate.kind) {D P} (cd : codec D) f DI (par : ops P Z) p v comp rest content :
  codec_ok f cd DI -> Conforms par (comp ++ rest) False L p v -> v_pos v = 0 -> zlen (comp ++ rest) <= N -> fmt f comp content -> T_Inflate.magic_ok k False L (comp ++ rest) ->
  exists x, z_new k cd par bufsize p gas = Ret x /\ bs_st x = Ok /\ good true L (bs_ops (z_src cd par (is_bz k))) x content.
Proof.
  intros Hcd HC Hv Hn Hf Hm. 
  assert (skipn (Z.to_nat (v_pos v)) (comp ++ rest) = comp ++ rest) as Hsk by (rewrite Hv; reflexivity).
  destruct (C29_intact cd f DI par k (comp ++ rest) False L p v bufsize gas comp content rest Hcd HC ltac:(lia) Hb Hn Hsk Hf Hm) as (x & E & HCx & _).
  destruct (z_new_ok cd f DI par k (comp ++ rest) False L p v bufsize gas [] False Hcd HC Hb Hn ltac:(rewrite Hsk; exact Hm)) as (x' & E' & _ & HI).
  rewrite E in E'. injection E' as <-. exists x. split; [exact E|]. destruct HI as (_ & _ & I1 & _ & _ & _ & I2 & _). split; [exact I2|].
  exists view0. split; [eapply conforms_lim; [|exact HCx]; lia|]. split; [reflexivity|]. intros _. right. exists (fun x => small_buf (bs_buf x)). split; [apply bs_repeatable|exact I1].
Qed.
Lemma good_conforms {P} rep (par : ops P Z) p c : good rep L par p c -> exists v, Conforms par c False L p v /\ v_pos v = 0.
Proof. intros (v & H1 & H2 & _). eauto. Qed.

Lemma prefix_lzma c n : is_lzma (slice c 0 n) -> is_lzma c.
Proof.
  intros (di & sz & L1 & L2 & (t & Et) & Hd). exists di, sz. split; [exact L1|]. split; [exact L2|]. split; [|exact Hd].
  exists (t ++ skipn (Z.to_nat n) c). rewrite app_assoc. rewrite <- Et. unfold slice. cbn [Z.to_nat skipn]. symmetry. apply firstn_skipn.
Qed.
Lemma prefix_bz2 c n : is_bz2 (slice c 0 n) -> bzip2_magic c.
Proof.
  intros (h & lv & Hh & (t & Et)). exists h, lv, (t ++ skipn (Z.to_nat n) c). split; [exact Hh|].
  transitivity (slice c 0 n ++ skipn (Z.to_nat n) c); [unfold slice; cbn [Z.to_nat skipn]; symmetry; apply firstn_skipn|]. rewrite Et. reflexivity.
Qed.
Lemma slice_front (c a t : list Z) n : c = a ++ t -> zlen a <= n -> exists t', slice c 0 n = a ++ t'.
Proof.
  intros -> H. exists (firstn (Z.to_nat n - length a) t). unfold slice. cbn [Z.to_nat skipn]. rewrite firstn_app. rewrite firstn_all2 by (unfold zlen in H; lia). reflexivity.
Qed.
Lemma not_bzip2 ls c x : cmp ls c x -> (forall l, ls <> LBzip2 :: l) -> ~ bzip2_magic c.
Proof.
  intros H Hls Hm. destruct H as [x Hp| |ls c rest y x _ (t' & M)|ls hd c rest y x n _ Hi].
  - exact (proj1 Hp Hm).
  - eapply Hls; reflexivity.
  - destruct Hm as (h & lv & t & _ & E). congruence.
  - destruct Hm as (h & lv & t & _ & E). destruct Hi as (di & sz & _ & _ & (u & Eu) & _). rewrite Eu in E. discriminate.
Qed.
Lemma not_gzip ls c x : cmp ls c x -> (forall l, ls <> LGzip :: l) -> ~ gzip_magic c.
Proof.
  intros H Hls Hm. destruct H as [x Hp|ls c rest y x _ (h & lv & t' & _ & M)| |ls hd c rest y x n _ Hi].
  - exact (proj1 (proj2 Hp) Hm).
  - destruct Hm as (t & E). congruence.
  - eapply Hls; reflexivity.
  - destruct Hm as (t & E). destruct Hi as (di & sz & _ & _ & (u & Eu) & _). rewrite Eu in E. discriminate.
Qed.
Lemma not_lzma ls c x : cmp ls c x -> (forall l, ls <> LLzma :: l) -> ~ is_lzma c.
Proof.
  intros H Hls Hm. destruct H as [x Hp|ls c rest y x _ (h & lv & t' & _ & M)|ls c rest y x _ (t' & M)|].
  - exact (proj2 (proj2 Hp) Hm).
  - destruct Hm as (di & sz & _ & _ & (u & E) & _). rewrite M in E. discriminate.
  - destruct Hm as (di & sz & _ & _ & (u & E) & _). rewrite M in E. discriminate.
  - eapply Hls; reflexivity.
Qed.

Lemma bz_step rep ls c x P (par : ops P Z) p inp : cmp ls c x -> good rep L par p c ->
  exists r b, try_bz2 cb bufsize gas (Any par p inp) = Ret (r, b) /\
    match ls with
    | LBzip2 :: ls' => b = true /\ exists c', goodx true r c' /\ cmp ls' c' x
    | _ => b = false /\ goodx rep r c /\ (rep = true -> nxtx r (Z.min 13 (zlen c)))
    end.
Proof.
  intros Hc HG. destruct (peek_ok rep L par p c 16 HG ltac:(lia) ltac:(lia)) as (p1 & n & d & E & HG1 & Hn & _ & Hd & _).
  cbn [try_bz2]. rewrite E; cbn [bind].
  destruct (bz2_check_ok d) as (b & Eb & Hbq). rewrite Eb; cbn [bind].
  assert ((forall l, ls <> LBzip2 :: l) -> exists r b0, (if b then let* ns := bz_new cb par bufsize p1 gas in
      match bs_st ns with Ok => Ret (Any (bs_ops (z_src cb par true)) ns (fun ns => inp (z_par (bs_src ns))), true) | _ => let* (p0, _) := o_reset par (z_par (bs_src ns)) 0 in Ret (Any par p0 inp, false) end
      else Ret (Any par p1 inp, false)) = Ret (r, b0) /\ b0 = false /\ goodx rep r c /\ (rep = true -> nxtx r (Z.min 13 (zlen c)))) as Hno.
  { intros Hls. destruct b.
    - exfalso. eapply not_bzip2; [exact Hc|exact Hls|]. destruct Hd as [(-> & -> & _)|(D1 & -> & _)]; [apply (prefix_bz2 [] 0); apply Hbq; reflexivity|eapply prefix_bz2; apply Hbq; reflexivity].
    - eexists _, _. split; [reflexivity|]. split; [reflexivity|]. split; [exact HG1|]. cbn [nxtx]. intros Hrep m Hm.
      destruct (Hn Hrep m) as (p3 & n3 & c3 & E3 & H3); [destruct Hd as [(-> & -> & ->)|(D1 & -> & D2)]; [change (zlen (@nil Z)) with 0 in Hm; lia|lia]|].
      exists p3, n3, c3. split; [exact E3|]. destruct Hd as [(-> & -> & ->)|(D1 & -> & D2)]; [change (zlen (@nil Z)) with 0 in Hm; lia|lia]. }
  destruct Hc as [x Hp|ls c rest y x Hf Hm Hby Hz Hrec| |]; try (apply Hno; discriminate).
  assert (b = true) as ->.
  { apply Hbq. destruct Hm as (h & lv & t & Hh & Em). exists h, lv. split; [exact Hh|].
    assert (zlen (c ++ rest) >= 10) by (rewrite Em, !zlen_cons; pose proof (zlen_nonneg t); lia).
    destruct Hd as [(Q & _)|(D1 & -> & D2)]; [rewrite Q in Em; discriminate|].
    destruct (slice_front (c ++ rest) ([66; 90; h; lv] ++ [49; 65; 89; 38; 83; 89]) t n Em) as (t' & Et); [change (zlen ([66; 90; h; lv] ++ [49; 65; 89; 38; 83; 89])) with 10; lia|]. exists t'. exact Et. }
  destruct (good_conforms _ _ _ _ HG1) as (v & HC & Hv).
  destruct (z_new_good Bzip2 cb fb DIb par p1 v c rest y Hcb HC Hv Hz Hf) as (ns & En & Hst & Hgood).
  { cbn [T_Inflate.magic_ok]. split; [tauto|]. split; [lia|]. exact Hm. }
  cbn [z_new] in En. rewrite En; cbn [bind]. rewrite Hst. eexists _, _. split; [reflexivity|]. split; [reflexivity|]. exists y. split; [exact Hgood|exact Hrec].
Qed.

Lemma nxt_peek {P} (par : ops P Z) p1 (c d : list Z) n :
  nxt par p1 n -> (c = [] /\ d = [] /\ n = -1 \/ 0 < n <= zlen c /\ d = slice c 0 n /\ (2 <= n \/ n = zlen c)) ->
  (2 <= Z.min 13 (zlen c) -> Z.min 13 (zlen c) <= n) -> nxt par p1 (Z.min 13 (zlen c)).
Proof.
  intros Hn Hd H2 m Hm. destruct Hd as [(-> & -> & ->)|(D1 & -> & D2)]; [change (zlen (@nil Z)) with 0 in Hm; lia|].
  destruct (Hn m ltac:(lia)) as (p3 & n3 & c3 & E3 & H3). exists p3, n3, c3. split; [exact E3|lia].
Qed.
Lemma gz_step rep ls c x P (par : ops P Z) p inp : cmp ls c x -> good rep L par p c ->
  exists r b, try_gzip cg bufsize gas (Any par p inp) = Ret (r, b) /\
    match ls with
    | LGzip :: ls' => b = true /\ exists c', goodx true r c' /\ cmp ls' c' x
    | _ => b = false /\ goodx rep r c /\ (rep = true -> nxt par p (Z.min 13 (zlen c)) -> nxtx r (Z.min 13 (zlen c)))
    end.
Proof.
  intros Hc HG. destruct (peek_ok rep L par p c 2 HG ltac:(lia) ltac:(lia)) as (p1 & n & d & E & HG1 & Hn & _ & Hd & HN).
  cbn [try_gzip]. rewrite E; cbn [bind].
  assert (exists b, (if 2 <=? n then match d with c0 :: c1 :: _ => Ret ((c0 =? 31) && (c1 =? 139)) | _ => UB end else Ret false) = Ret b /\ (b = true <-> gzip_magic c)) as (b & Eb & Hbq).
  { destruct Hd as [(-> & -> & ->)|(D1 & -> & D2)].
    - change (2 <=? -1) with false. cbn iota. exists false. split; [reflexivity|]. split; [discriminate|]. intros (t & Q); discriminate.
    - destruct c as [|c0 [|c1 c]].
      + change (zlen (@nil Z)) with 0 in D1. lia.
      + change (zlen [c0]) with 1 in D1. destruct (Z.leb_spec 2 n); [lia|]. exists false. split; [reflexivity|]. split; [discriminate|]. intros (t & Q); discriminate.
      + destruct (Z.leb_spec 2 n); [|rewrite !zlen_cons in D2; pose proof (zlen_nonneg c); lia].
        unfold slice. cbn [Z.to_nat skipn]. replace (Z.to_nat n) with (S (S (Z.to_nat (n - 2)))) by lia. cbn [firstn].
        eexists. split; [reflexivity|]. rewrite andb_true_iff, !Z.eqb_eq. split; [intros (-> & ->); exists c; reflexivity|]. intros (t & Q). split; congruence. }
  rewrite Eb; cbn [bind].
  assert ((forall l, ls <> LGzip :: l) -> exists r b0, (if b then let* ns := gz_new cg par bufsize true p1 gas in
      match bs_st ns with Ok => Ret (Any (bs_ops (z_src cg par false)) ns (fun ns => inp (z_par (bs_src ns))), true) | _ => let* (p0, _) := o_reset par (z_par (bs_src ns)) 0 in Ret (Any par p0 inp, false) end
      else Ret (Any par p1 inp, false)) = Ret (r, b0) /\ b0 = false /\ goodx rep r c /\ (rep = true -> nxt par p (Z.min 13 (zlen c)) -> nxtx r (Z.min 13 (zlen c)))) as Hno.
  { intros Hls. destruct b; [exfalso; eapply not_gzip; [exact Hc|exact Hls|]; tauto|].
    eexists _, _. split; [reflexivity|]. split; [reflexivity|]. split; [exact HG1|]. cbn [nxtx]. intros Hrep HX. eapply nxt_peek; [exact (Hn Hrep)|exact Hd|]. intros H2. apply HN; [exact HX|lia]. }
  destruct Hc as [x Hp| |ls c rest y x Hf Hm Hby Hz Hrec|]; try (apply Hno; discriminate).
  assert (b = true) as -> by tauto.
  destruct (good_conforms _ _ _ _ HG1) as (v & HC & Hv).
  destruct (z_new_good Gzip cg fg DIg par p1 v c rest y Hcg HC Hv Hz Hf) as (ns & En & Hst & Hgood).
  { cbn [T_Inflate.magic_ok]. split; [tauto|]. split; [lia|]. exact Hm. }
  cbn [z_new] in En. rewrite En; cbn [bind]. rewrite Hst. eexists _, _. split; [reflexivity|]. split; [reflexivity|]. exists y. split; [exact Hgood|exact Hrec].
Qed.
Lemma lz_step rep ls c x P (par : ops P Z) p inp : cmp ls c x -> good rep L par p c ->
  exists r b, try_lzma cl bufsize gas true (Any par p inp) = Ret (r, b) /\
    (b = false /\ goodx rep r c /\ (nxt par p (Z.min 13 (zlen c)) -> forall l, ls <> LLzma :: l) \/
     exists ls' c', ls = LLzma :: ls' /\ b = true /\ goodx true r c' /\ cmp ls' c' x).
Proof.
  intros Hc HG. destruct (peek_ok rep L par p c 2 HG ltac:(lia) ltac:(lia)) as (p1 & n & d & E & HG1 & Hn & _ & Hd & HN).
  cbn [try_lzma]. rewrite E; cbn [bind].
  assert (bytes d) as Bd by (destruct Hd as [(_ & -> & _)|(_ & -> & _)]; [constructor|apply bytes_slice; apply (cmp_bytes _ _ _ Hc)]).
  destruct (lzma_check_ok d Bd) as (b & Eb & Hbq). rewrite Eb; cbn [bind].
  destruct b.
  2: { eexists _, _. split; [reflexivity|]. left. split; [reflexivity|]. split; [exact HG1|]. intros HX l ->.
    inversion Hc as [| | |ls0 h c0 rest y x0 n0 Zh Hh En0 Hv Hby Hz Hrec]; subst.
    pose proof (zlen_nonneg (c0 ++ rest)). assert (zlen (h ++ c0 ++ rest) = 13 + zlen (c0 ++ rest)) as Zt by (rewrite zlen_app; lia).
    assert (Z.min 13 (zlen (h ++ c0 ++ rest)) <= n) by (apply HN; [exact HX|lia]).
    assert (true = false -> False) by discriminate. assert (is_lzma d -> False) as HF by (intros Q; apply Hbq in Q; discriminate). apply HF.
    destruct Hd as [(Q & _)|(D1 & -> & D2)]; [apply (f_equal (@zlen Z)) in Q; rewrite zlen_app in Q; change (zlen (@nil Z)) with 0 in Q; lia|].
    destruct Hh as (di & sz & L1 & L2 & (t & Et) & Hd2). exists di, sz. split; [exact L1|]. split; [exact L2|]. split; [|exact Hd2].
    destruct (slice_front (h ++ c0 ++ rest) ([93] ++ di ++ sz) (t ++ c0 ++ rest) n) as (t' & Et'); [rewrite Et, <- app_assoc; reflexivity|rewrite !zlen_app; change (zlen [93]) with 1; lia|]. exists t'. exact Et'. }
  assert (is_lzma c) as Hl by (destruct Hd as [(-> & -> & _)|(D1 & -> & _)]; [apply Hbq; reflexivity|eapply prefix_lzma; apply Hbq; reflexivity]).
  destruct ls as [|[] ls]; try (exfalso; eapply not_lzma; [exact Hc| |exact Hl]; discriminate).
  inversion Hc as [| | |ls0 h c0 rest y x0 n0 Zh Hh En0 Hv Hby Hz Hrec]; subst.
  destruct (good_conforms _ _ _ _ HG1) as (v & HC & Hvp).
  assert (bytes h) as Bh by (unfold bytes in *; apply Forall_app in Hby; tauto).
  assert (skipn (Z.to_nat (v_pos v)) (h ++ c0 ++ rest) = h ++ c0 ++ rest) as Hsk by (rewrite Hvp; reflexivity).
  assert (exists ns, l_new cl par bufsize true p1 gas = Ret ns /\ bs_st ns = Ok /\ Conforms (l_ops cl par) y False BUF_LIM ns view0) as (ns & En & Hst & HCn).
  { destruct Hv as [(Hn1 & Hm)|(Hn1 & Hm & Hr)].
    - destruct (C48_marked cl fl DIl par _ False L p1 v bufsize gas h c0 y rest Hcl HC ltac:(lia) Hb Hz Hsk) as (ns & En & HCn & [[]|(Q & _)]); [split; [exact Zh|split; [exact Bh|split; [exact Hh|congruence]]]|exact Hm|eauto].
    - destruct (C48_sized_partial cl fl DIl par _ False L p1 v bufsize gas h c0 y rest Hcl HC ltac:(lia) Hb Hz Hsk) as (ns & En & HCn & [[]|(Q & _)]); [split; [exact Zh|split; [exact Bh|split; [exact Hh|congruence]]]|exact Hm|left; exact Hr|eauto]. }
  rewrite En; cbn [bind]. rewrite Hst. eexists _, _. split; [reflexivity|]. right. exists ls, y. split; [reflexivity|]. split; [reflexivity|]. split; [|exact Hrec].
  exists view0. split; [eapply conforms_lim; [|exact HCn]; lia|]. split; [reflexivity|]. intros _. right. exists (fun x => small_buf (bs_buf x)). split; [apply l_repeatable|].
  unfold l_new in En. apply bind_ret in En as (((q & k) & bb) & _ & En). apply bind_ret in En as (ok & _ & En). apply bind_ret in En as (sz & _ & En). cbv zeta in En.
  destruct (negb (ok && true) || (sz <? -1)); [injection En as <-; vm_compute; discriminate|].
  unfold setMinBufSize in En. apply bind_ret in En as ((b1 & sp) & Em & En). injection En as <-. cbn [bs_buf] in *.
  eapply makeSpace_small in Em; [apply Em| | |]; [vm_compute; discriminate|lia|cbn; lia].
Qed.

(** one round of the loop takes off at least one layer *)
Lemma unwrap_ok k : forall rep ls c x s, cmp ls c x -> goodx rep s c -> (length ls <= S k)%nat -> (rep = true \/ forall l, ls <> LLzma :: l) ->
  exists r, unwrap cg cb cl bufsize gas true k s = Ret r /\ goodx false r x.
Proof.
  assert (forall rep r c, goodx rep r c -> goodx false r c) as Hweak.
  { intros rep [P par p inp] c (v & H1 & H2 & _). exists v. split; [exact H1|]. split; [exact H2|discriminate]. }
  induction k as [|k IH]; intros rep ls c x s Hc Hg Hk Hrep; cbn [unwrap].
  all: destruct s as [P par p inp]; destruct (bz_step rep ls c x P par p inp Hc Hg) as (s1 & b1 & E1 & H1); rewrite E1; cbn [bind].
  all: assert (exists rep1 ls1 c1, cmp ls1 c1 x /\ goodx rep1 s1 c1 /\ (b1 = true /\ rep1 = true /\ S (length ls1) = length ls \/ b1 = false /\ rep1 = rep /\ ls1 = ls /\ c1 = c /\ (rep = true -> nxtx s1 (Z.min 13 (zlen c))))) as (rep1 & ls1 & c1 & Hc1 & Hg1 & J1)
    by (destruct ls as [|[] ls]; try (destruct H1 as (H1 & H2 & H3); eexists rep, _, c; split; [exact Hc|]; split; [exact H2|]; right; auto);
        destruct H1 as (H1 & c' & H2 & H3); exists true, ls, c'; split; [exact H3|]; split; [exact H2|]; left; auto).
  all: destruct s1 as [P1 par1 p1 inp1]; destruct (gz_step rep1 ls1 c1 x P1 par1 p1 inp1 Hc1 Hg1) as (s2 & b2 & E2 & H2); rewrite E2; cbn [bind].
  all: assert (exists rep2 ls2 c2, cmp ls2 c2 x /\ goodx rep2 s2 c2 /\ (b2 = true /\ rep2 = true /\ S (length ls2) = length ls1 \/ b2 = false /\ rep2 = rep1 /\ ls2 = ls1 /\ c2 = c1 /\ (rep1 = true -> nxt par1 p1 (Z.min 13 (zlen c1)) -> nxtx s2 (Z.min 13 (zlen c1))))) as (rep2 & ls2 & c2 & Hc2 & Hg2 & J2)
    by (destruct ls1 as [|[] ls1]; try (destruct H2 as (H2 & H3 & H4); eexists rep1, _, c1; split; [exact Hc1|]; split; [exact H3|]; right; auto);
        destruct H2 as (H2 & c' & H3 & H4); exists true, ls1, c'; split; [exact H4|]; split; [exact H3|]; left; auto).
  all: destruct s2 as [P2 par2 p2 inp2]; destruct (lz_step rep2 ls2 c2 x P2 par2 p2 inp2 Hc2 Hg2) as (s3 & b3 & E3 & H3); rewrite E3; cbn [bind].
  all: assert (exists rep3 ls3 c3, cmp ls3 c3 x /\ goodx rep3 s3 c3 /\ (b3 = true /\ rep3 = true /\ S (length ls3) = length ls2 \/ b3 = false /\ rep3 = rep2 /\ ls3 = ls2 /\ c3 = c2 /\ (nxt par2 p2 (Z.min 13 (zlen c2)) -> forall l, ls2 <> LLzma :: l))) as (rep3 & ls3 & c3 & Hc3 & Hg3 & J3)
    by (destruct H3 as [(H3 & H4 & H5)|(ls' & c' & -> & H3 & H4 & H5)]; [exists rep2, ls2, c2; split; [exact Hc2|]; split; [exact H4|]; right; auto|exists true, ls', c'; split; [exact H5|]; split; [exact H4|]; left; auto]).
  all: destruct (b1 || b2 || b3) eqn:Eb.
  - assert (length ls3 = 0)%nat as Hz by (destruct J1 as [(-> & _ & J1)|(-> & _ & -> & -> & J1)], J2 as [(-> & _ & J2)|(-> & _ & -> & -> & J2)], J3 as [(-> & _ & J3)|(-> & _ & -> & -> & J3)]; try discriminate Eb; lia).
    destruct ls3; [|discriminate Hz]. inversion Hc3; subst. exists s3. split; [reflexivity|eapply Hweak; exact Hg3].
  - destruct J1 as [(-> & _ & J1)|(-> & -> & -> & -> & J1)]; [discriminate Eb|]. destruct J2 as [(-> & _ & J2)|(-> & -> & -> & -> & J2)]; [discriminate Eb|]. destruct J3 as [(-> & _ & J3)|(-> & -> & -> & -> & J3)]; [discriminate Eb|].
    assert (forall l, ls <> LLzma :: l) as J4 by (destruct Hrep as [Hrep|Hrep]; [exact (J3 (J2 Hrep (J1 Hrep)))|exact Hrep]). assert (ls = []) as ->.
    { destruct ls as [|[] ls]; [reflexivity| | |exfalso; eapply J4; reflexivity]; [destruct H1; discriminate|destruct H2; discriminate]. }
    inversion Hc; subst. exists s3. split; [reflexivity|eapply Hweak; exact Hg3].
  - apply (IH rep3 ls3 c3 x s3 Hc3 Hg3); destruct J1 as [(-> & -> & J1)|(-> & -> & -> & -> & J1)], J2 as [(-> & -> & J2)|(-> & -> & -> & -> & J2)], J3 as [(-> & -> & J3)|(-> & -> & -> & -> & J3)]; try discriminate Eb; try lia; try (left; reflexivity).
  - destruct J1 as [(-> & _ & J1)|(-> & -> & -> & -> & J1)]; [discriminate Eb|]. destruct J2 as [(-> & _ & J2)|(-> & -> & -> & -> & J2)]; [discriminate Eb|]. destruct J3 as [(-> & _ & J3)|(-> & -> & -> & -> & J3)]; [discriminate Eb|].
    assert (forall l, ls <> LLzma :: l) as J4 by (destruct Hrep as [Hrep|Hrep]; [exact (J3 (J2 Hrep (J1 Hrep)))|exact Hrep]). assert (ls = []) as ->.
    { destruct ls as [|[] ls]; [reflexivity| | |exfalso; eapply J4; reflexivity]; [destruct H1; discriminate|destruct H2; discriminate]. }
    inversion Hc; subst. exists s3. split; [reflexivity|eapply Hweak; exact Hg3].
Qed.
End Steps.
