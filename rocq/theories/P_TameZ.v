(** Safety of the decompressing streams over input about which nothing is known. *)
From Verif Require Import Base StreamSpec P_Stream M_Buffered BufferedSpec M_Inflate InflateSpec M_Sub ArchiveSpec P_Buffered P_Tame P_TameBuf.

Lemma zlen_skipn' {A} (l : list A) k : 0 <= k <= zlen l -> zlen (skipn (Z.to_nat k) l) = zlen l - k.
Proof. intros. unfold zlen in *. rewrite skipn_length. lia. Qed.
Section Z.
Context {D P : Type}.
Variables (cd : codec D) (X : Z) (DI : D -> Z -> Z -> Prop).
Hypothesis Hcd : sane_codec cd X DI.
Hypothesis HX : 0 <= X.
Variables (par : ops P Z) (cr : Prop) (KP PI : P -> Prop) (left_ : P -> Z) (base : Z).
Hypothesis HPI : forall p, PI p -> KP p /\ 0 <= left_ p /\ 0 <= base <= o_pos par p.
Hypothesis Hread : forall p, PI p -> safe cr (o_read par p 1 0) (fun '(p', n, d) =>
  KP p' /\ (1 <= n -> PI p' /\ zlen d = n /\ o_pos par p' = o_pos par p + n /\ left_ p' + n <= left_ p)).
Hypothesis Hreset : forall p q, PI p -> base <= q <= o_pos par p -> safe cr (o_reset par p q) (fun '(p', _) => KP p').
Variable total : Z.

Definition z_J (bad : bool) (s : zstate D P) (c : Z) (m : nat) : Prop :=
  KP (z_par s) /\ m = z_mu s /\ exists u, DI (z_dec s) u c /\ 0 <= u <= total /\
   (z_open s = true -> PI (z_par s) /\ left_ (z_par s) <= Z.of_nat (z_gas s) /\ zlen (z_win s) <= o_pos par (z_par s) - base /\ u + zlen (z_win s) + left_ (z_par s) <= total).
Lemma z_tame bz : TameSrc (z_src cd par bz) None (X * (total + 1)) cr z_J (fun s => KP (z_par s)).
Proof.
  split.
  - intros b s c m (H & _); exact H.
  - intros s c m (_ & -> & _). reflexivity.
  - intros bad s c m space (HK & -> & u & HD & Hu & Ho) Hsp. cbn [z_src fill mu]. unfold z_fill.
    destruct (z_open s) eqn:Eo; cbn [negb].
    2:{ cbn [safe]. change (zlen (@nil Z)) with 0. split; [lia|]. split; [exact HK|]. split; lia. }
    destruct (Ho eq_refl) as (HP & Hg & Hw & Ht). clear Ho.
    assert (z_mu s = (2 * z_gas s + (if (z_out s =? 0)%Z then 1 else 0) + 2)%nat) as Emu by (unfold z_mu; rewrite Eo; reflexivity).
    (* after the optional read: state s1 *)
    assert (forall s1, z_open s1 = true -> z_dec s1 = z_dec s -> z_out s1 = z_out s -> PI (z_par s1) -> left_ (z_par s1) <= Z.of_nat (z_gas s1) ->
       zlen (z_win s1) <= o_pos par (z_par s1) - base -> u + zlen (z_win s1) + left_ (z_par s1) <= total ->
       (z_mu s = if (z_out s =? 0)%Z then 2 * z_gas s1 + 3 else 2 * z_gas s1 + 4)%nat ->
       safe cr (let '(d, k, y, r) := c_step cd (z_dec s1) (z_win s1) space in
      let win := skipn (Z.to_nat k) (z_win s1) in
      let out := space - zlen y in
      match r with
      | More => Ret (mkZ (z_par s1) true d win out (z_bad s1) (z_gas s1), zlen y, y, z_bad s1)
      | Bad => Ret (mkZ (z_par s1) true d win out true (z_gas s1), if bz then -1 else zlen y, y, true)
      | End =>
          let* p := (if zlen win =? 0 then Ret (z_par s1)
                     else let* (p, _) := o_reset par (z_par s1) (o_pos par (z_par s1) - zlen win) in Ret p) in
          Ret (mkZ p false d [] 0 (z_bad s1) (z_gas s1), zlen y, y, z_bad s1)
      end) (fun '(s', n, d, e) => zlen d <= space /\ KP (z_par s') /\
      (0 < n -> zlen d = n /\ Forall (fun c => 0 <= c < 256) d /\ data_at None c d /\ in_content None (c + n) /\ c + n <= X * (total + 1) /\
         exists m', (m' <= z_mu s)%nat /\ z_J (bad || e) s' (c + n) m') /\
      (n = 0 -> exists m', (m' < z_mu s)%nat /\ z_J (bad || e) s' c m'))) as Hcore.
    { clear Emu HP Hg Hw Ht. intros s1 O1 D1 Ou1 HP Hg Hw Ht Hmu. rewrite D1. destruct (c_step cd (z_dec s) (z_win s1) space) as (((d & k) & y) & r) eqn:Es.
      assert (1 <= space) as Hsp1 by lia. destruct (sc_step _ _ _ Hcd _ _ _ _ _ _ _ _ _ HD Hsp1 Es) as (S1 & S2 & S3 & S4). cbv zeta.
      pose proof (sc_bound _ _ _ Hcd _ _ _ S4) as Sb. pose proof (HPI _ HP) as (HKP & Hl0 & Hb). pose proof (zlen_nonneg y) as Hy0.
      assert (zlen (skipn (Z.to_nat k) (z_win s1)) = zlen (z_win s1) - k) as Zw by (apply zlen_skipn'; lia).
      assert (c + zlen y <= X * (total + 1)) as Hcap by (transitivity (X * (u + k + 1)); [lia|apply Z.mul_le_mono_nonneg_l; lia]).
      assert (forall s' e m', z_J (bad || e) s' (c + zlen y) m' -> KP (z_par s') -> (m' <= z_mu s)%nat -> (zlen y = 0 -> (m' < z_mu s)%nat) ->
         forall n, n = zlen y \/ n < 0 ->
         zlen y <= space /\ KP (z_par s') /\ (0 < n -> zlen y = n /\ Forall (fun c => 0 <= c < 256) y /\ data_at None c y /\ in_content None (c + n) /\ c + n <= X * (total + 1) /\
         exists m', (m' <= z_mu s)%nat /\ z_J (bad || e) s' (c + n) m') /\ (n = 0 -> exists m', (m' < z_mu s)%nat /\ z_J (bad || e) s' c m')) as Hfin.
      { intros s' e m' HJ' HK' Hm1 Hm2 n Hn. split; [exact S2|]. split; [exact HK'|]. split.
        - intros Hn0. assert (n = zlen y) as -> by lia. split; [reflexivity|]. split; [exact S3|]. split; [exact I|]. split; [exact I|]. split; [exact Hcap|]. exists m'. split; assumption.
        - intros ->. destruct Hn as [Hn|Hn]; [|lia]. exists m'. split; [apply Hm2; lia|]. rewrite <- Hn, Z.add_0_r in HJ'. exact HJ'. }
      assert (forall bb : bool, exists m', z_J (bad || bb) (mkZ (z_par s1) true d (skipn (Z.to_nat k) (z_win s1)) (space - zlen y) bb (z_gas s1)) (c + zlen y) m' /\ (m' <= z_mu s)%nat /\ (zlen y = 0 -> (m' < z_mu s)%nat)) as Hgo.
      { intros bb. eexists. split; [split; [exact HKP|]; split; [reflexivity|]; exists (u + k); cbn [z_dec z_par z_open z_gas z_win]; split; [exact S4|]; split; [lia|]; intros _; split; [exact HP|]; split; [exact Hg|]; rewrite Zw; split; lia|].
        unfold z_mu at 1 3. cbn [z_open z_gas z_out]. rewrite Hmu. destruct (Z.eqb_spec (z_out s) 0), (Z.eqb_spec (space - zlen y) 0); split; try lia. }
      destruct r.
      - destruct (Hgo (z_bad s1)) as (m' & G1 & G2 & G3). cbn [safe]. apply (Hfin _ _ m' G1 HKP G2 G3). left; reflexivity.
      - eapply safe_bind with (Q := fun p => KP p).
        { destruct (zlen (skipn _ _) =? 0); [cbn [safe]; exact HKP|]. eapply safe_bind; [apply Hreset; [exact HP|rewrite Zw; pose proof (zlen_nonneg (z_win s1)); lia]|]. intros (p' & r') Hp'. exact Hp'. }
        intros p Hp. cbn [safe]. apply (Hfin (mkZ p false d [] 0 (z_bad s1) (z_gas s1)) _ 0%nat); [|exact Hp|lia|intros _; rewrite Hmu; destruct (z_out s =? 0); lia|left; reflexivity].
        split; [exact Hp|]. split; [reflexivity|]. exists (u + k). cbn [z_dec z_open]. split; [exact S4|]. split; [lia|discriminate].
      - destruct (Hgo true) as (m' & G1 & G2 & G3). cbn [safe].
        eapply (Hfin _ true m'); [|exact HKP|exact G2|exact G3|destruct bz; [right; lia|left; reflexivity]].
        rewrite orb_true_r in *. exact G1. }
    destruct (Z.eqb_spec (z_out s) 0) as [E0|E0]; cbn [negb].
    + cbn [bind]. destruct (Z.eqb_spec (z_out s) 0); [|lia]. cbn [negb andb]. apply Hcore; try assumption; try reflexivity. rewrite Emu. lia.
    + unfold z_read. eapply safe_bind with (Q := fun s1 => KP (z_par s1) /\ z_out s1 = z_out s /\ (z_bad s1 = false -> z_open s1 = true /\ z_dec s1 = z_dec s /\ PI (z_par s1) /\ left_ (z_par s1) <= Z.of_nat (z_gas s1) /\
       zlen (z_win s1) <= o_pos par (z_par s1) - base /\ u + zlen (z_win s1) + left_ (z_par s1) <= total /\ (z_gas s = 1 + z_gas s1)%nat)).
      { eapply safe_bind; [apply Hread; exact HP|]. intros ((p & n) & b) (R1 & R2). destruct (Z.ltb_spec n 1) as [L|L].
        - cbn [safe z_par z_out z_bad]. split; [exact R1|]. split; [reflexivity|discriminate].
        - destruct (R2 L) as (Q1 & Q2 & Q3 & Q4). destruct (HPI _ HP) as (_ & _ & Hb). destruct (HPI _ Q1) as (_ & Hl & _). cbn [safe z_par z_out z_bad z_open z_dec z_gas z_win]. split; [exact R1|]. split; [reflexivity|]. intros _.
          split; [exact Eo|]. split; [reflexivity|]. split; [exact Q1|]. split; [lia|]. split; [lia|]. split; [pose proof (zlen_nonneg (z_win s)); lia|lia]. }
      intros s1 (Q1 & Q2 & Q3). rewrite Q2. destruct (Z.eqb_spec (z_out s) 0); [lia|]. cbn [negb andb].
      destruct (z_bad s1) eqn:Eb.
      { cbn [safe]. change (zlen (@nil Z)) with 0. split; [lia|]. split; [exact Q1|]. split; lia. }
      destruct (Q3 eq_refl) as (T1 & T2 & T3 & T4 & T5 & T6 & T7). pose proof (Hcore s1 T1 T2 Q2 T3 T4 T5 T6) as Hc. rewrite Eb in Hc. apply Hc. lia.
Qed.
(** the stream made by the constructor *)
Lemma z_ready_tame bz lim bufsize p gas : lim <= INT32_MAX /\ (lim <= BUF_LIM \/ cr) -> 1 <= lim -> 0 <= bufsize <= BUF_LIM -> PI p -> left_ p <= total -> left_ p <= Z.of_nat gas -> 
  Tame (bs_ops (z_src cd par bz)) None lim cr False (tI None (X * (total + 1)) z_J (fun s => KP (z_par s))) /\
  exists x, z_ready cd bufsize p gas = Ret x /\ tI None (X * (total + 1)) z_J (fun s => KP (z_par s)) x.
Proof.
  intros Hl Hl1 Hb HP Ht Hg. split; [exact (bs_tame _ _ _ _ _ _ (z_tame bz) lim Hl False Hl1 (False_ind _))|].
  destruct (HPI _ HP) as (HK & Hl0 & Hbase).
  destruct (tI_init _ _ _ _ _ _ (z_tame bz) (mkZ p true (c_init cd) [] 1 false gas) (z_mu (mkZ p true (c_init cd) [] 1 false gas)) (-1) bufsize) as (b & E & HI).
  - split; [exact HK|]. split; [reflexivity|]. exists 0. cbn [z_dec z_open z_par z_gas z_win]. split; [apply (sc_init _ _ _ Hcd)|]. split; [lia|]. intros _. split; [exact HP|]. split; [exact Hg|]. change (zlen (@nil Z)) with 0. lia.
  - apply Z.mul_nonneg_nonneg; lia.
  - exact Hb.
  - unfold z_ready, setMinBufSize, bs_new. cbn [bs_buf bs_fin bs_src bs_size bs_pos bs_st].
    destruct (makeSpace buf0 bufsize) as [(b' & sp)| | |]; cbn [bind] in *; try discriminate. injection E as <-. eexists; split; [reflexivity|exact HI].
Qed.
End Z.
