(** Opening a layer of compression on arbitrary bytes ends. *)
From Verif Require Import Base StreamSpec P_Stream M_Buffered BufferedSpec M_Inflate InflateSpec M_Lzma LzmaSpec M_Sub ArchiveSpec M_Text M_Kmp M_Detect M_Rpm.
From Verif Require Import P_Buffered P_Tame P_TameBuf P_TameZ P_TameLz.

(** no endless loop *)
Definition runs {A} (x : out A) : Prop := safe True x (fun _ => True).
Lemma runs_bind {A B} (x : out A) (f : A -> out B) : runs x -> (forall a, runs (f a)) -> runs (bind x f).
Proof. unfold runs. destruct x; cbn; intros H1 H2; auto. Qed.
Lemma runs_safe {A} (x : out A) : runs x -> safe True x (fun _ => True).
Proof. exact (fun H => H). Qed.
Lemma be32_runs big b o : runs (be32 big b o).
Proof. unfold be32. destruct (_ && _); exact I. Qed.
Lemma memeq_runs d o m : runs (memeq d o m).
Proof. unfold memeq. destruct (_ && _); exact I. Qed.
Lemma rdc_runs d i : runs (rdc d i).
Proof. unfold rdc. destruct (zget d i); exact I. Qed.
Lemma rd_le_runs n : forall d i, runs (rd_le n d i).
Proof. induction n as [|n IH]; intros d i; cbn [rd_le]; [exact I|]. apply runs_bind; [apply rdc_runs|]. intros a. apply runs_bind; [apply IH|]. intros; exact I. Qed.
Lemma chk32_runs z : runs (chk32 z).
Proof. unfold chk32. destruct (i32 z); exact I. Qed.
Lemma rpm_index_runs big b ni hs n : forall i, runs (rpm_index big b ni hs n i).
Proof.
  induction n as [|n IH]; intros i; cbn [rpm_index]; [exact I|].
  apply runs_bind; [apply be32_runs|]; intros _. apply runs_bind; [apply be32_runs|]; intros _. apply runs_bind; [apply be32_runs|]; intros o.
  destruct (_ || _); [exact I|]. apply runs_bind; [apply be32_runs|]; intros _. apply runs_bind; [destruct (i <? ni - 1); [apply be32_runs|exact I]|]. intros _. apply IH.
Qed.
Lemma bz2_check_runs d : runs (bz2_check d).
Proof.
  unfold bz2_check. destruct (_ <? _); [exact I|]. apply runs_bind; [apply memeq_runs|]. intros m. destruct (negb m); [exact I|].
  apply runs_bind; [apply rdc_runs|]. intros c. destruct (negb _); [exact I|apply memeq_runs].
Qed.
Lemma gzip_check_runs d : runs (gzip_check d).
Proof. unfold gzip_check. destruct (_ <? _); [|exact I]. apply runs_bind; [apply rdc_runs|]. intros a. destruct (a =? 31); [|exact I]. apply runs_bind; [apply rdc_runs|]. intros; exact I. Qed.
Lemma lzma_check_runs d : runs (lzma_check d).
Proof.
  unfold lzma_check. destruct (_ <? _); [exact I|]. apply runs_bind; [apply rdc_runs|]. intros a. destruct (negb _); [exact I|].
  apply runs_bind; [apply rdc_runs|]. intros b. destruct (negb _); [exact I|]. apply runs_bind; [apply rd_le_runs|]. intros dic. cbv zeta.
  apply runs_bind; [apply rd_le_runs|]. intros u. exact I.
Qed.


Lemma Plim : INT32_MAX <= INT32_MAX /\ (INT32_MAX <= BUF_LIM \/ True).
Proof. split; [lia|right; exact I]. Qed.

Section Layers.
Context {P : Type}.
Variables (par : ops P Z) (content : option (list Z)) (B : Z) (neg : Prop) (I : P -> Prop).
Hypothesis HT : Tame par content INT32_MAX True neg I.
(** [B] bounds the positions, [X] is the factor of the decompressors *)
Hypothesis HB : forall p, I p -> o_pos par p <= B.
Variables (X bufsize : Z) (gas : nat) (alloc_ok : bool).
Hypothesis HX : 0 <= X.
Hypothesis Hbuf : 0 <= bufsize <= BUF_LIM.
Hypothesis Hgas : B <= Z.of_nat gas.

Lemma rd p mn mx : I p -> INT32_MIN <= mn <= INT32_MAX -> INT32_MIN <= mx <= INT32_MAX -> safe True (o_read par p mn mx) (fun '(p', n, d) => I p').
Proof. intros HI H1 H2. eapply safe_impl; [apply (tm_read _ _ _ _ _ _ HT p mn mx HI); [exact H1|exact (proj2 H1)|exact H2]|exact (fun x => x)|]. intros ((p' & n) & d) (R & _). exact R. Qed.
Lemma magic_reset p q mn mx : I p -> 0 <= q -> INT32_MIN <= mn <= INT32_MAX -> INT32_MIN <= mx <= INT32_MAX ->
  forall A (f : P -> Z -> list Z -> out A) (Q : A -> Prop), (forall p n b, I p -> safe True (f p n b) Q) ->
  safe True (let* (p, n, b) := o_read par p mn mx in let* (p, _) := o_reset par p q in f p n b) Q.
Proof.
  intros HI Hq H1 H2 A f Q Hf. eapply safe_bind; [apply rd; assumption|]. intros ((p1 & n) & b) I1.
  eapply safe_bind; [apply (tm_reset _ _ _ _ _ _ HT p1 q I1 Hq)|]. intros (p2 & r) (I2 & _). apply Hf; exact I2.
Qed.
Definition pl (p : P) : Z := B - o_pos par p.
Lemma posle p : I p -> 0 <= o_pos par p <= B.
Proof. intros H. destruct (tm_pos _ _ _ _ _ _ HT p H) as (H1 & _). split; [exact H1|exact (HB p H)]. Qed.
Lemma pl_ok q : I q -> I q /\ 0 <= pl q /\ 0 <= 0 <= o_pos par q.
Proof. intros Hq. pose proof (posle q Hq). unfold pl. split; [exact Hq|lia]. Qed.
Lemma pl_read q : I q -> safe True (o_read par q 1 0) (fun '(p', n, d) => I p' /\ (1 <= n -> I p' /\ zlen d = n /\ o_pos par p' = o_pos par q + n /\ pl p' + n <= pl q)).
Proof.
  intros Hq. eapply safe_impl; [apply (tm_read _ _ _ _ _ _ HT q 1 0 Hq); unfold INT32_MIN, INT32_MAX; lia|tauto|].
  intros ((q' & m) & d) (R1 & R2 & R3 & R4 & R5 & R6 & R7 & _). split; [exact R1|]. intros Hm. split; [exact R1|]. unfold pl. specialize (R7 ltac:(lia)). lia.
Qed.

(** *** gzip, zlib and bzip2 *)
Section Z.
Context {D : Type}.
Variables (cd : codec D) (DI : D -> Z -> Z -> Prop).
Hypothesis Hcd : sane_codec cd X DI.
Notation zJ := (z_J DI par I I pl 0 B).
Notation zK := (fun s : zstate D P => I (z_par s)).
Lemma z_layer bz : TameSrc (z_src cd par bz) None (X * (B + 1)) True zJ zK.
Proof.
  apply z_tame; [exact Hcd|exact HX|exact pl_ok|exact pl_read|].
  intros q r Hq Hr. eapply safe_impl; [apply (tm_reset _ _ _ _ _ _ HT q r Hq); lia|tauto|]. intros (q' & r') (R & _). exact R.
Qed.
Variable cap : Z.
Hypothesis Hcap0 : 0 <= cap.
Hypothesis Hcap : forall bz, TameSrc (z_src cd par bz) None cap True zJ zK.
Lemma z_ready_safe p : I p -> safe True (z_ready cd bufsize p gas) (fun x => tI None cap zJ zK x /\ bs_st x = Ok).
Proof.
  intros HI. pose proof (posle p HI) as Hp.
  destruct (tI_init _ _ _ _ _ _ (Hcap true) (mkZ p true (c_init cd) [] 1 false gas) (z_mu (mkZ p true (c_init cd) [] 1 false gas)) (-1) bufsize) as (b & E & HJ).
  - split; [exact HI|]. split; [reflexivity|]. exists 0. cbn [z_dec z_open z_par z_gas z_win]. split; [apply (sc_init _ _ _ Hcd)|]. split; [lia|]. intros _. split; [exact HI|]. unfold pl. change (zlen (@nil Z)) with 0. lia.
  - exact Hcap0.
  - exact Hbuf.
  - unfold z_ready, setMinBufSize, bs_new. cbn [bs_buf bs_fin bs_src bs_size bs_pos bs_st].
    destruct (makeSpace buf0 bufsize) as [(b' & sp)| | |]; cbn [bind] in *; try discriminate. injection E as <-. split; [exact HJ|reflexivity].
Qed.
Definition z_opened (x : bstream (zstate D P) Z) : Prop := I (z_par (bs_src x)) /\ (bs_st x = Error \/ tI None cap zJ zK x /\ bs_st x = Ok).
Lemma z_opened_ready p : I p -> safe True (z_ready cd bufsize p gas) z_opened.
Proof. intros HI. eapply safe_impl; [apply z_ready_safe; exact HI|tauto|]. intros x (H1 & H2). split; [apply H1|right; auto]. Qed.
Lemma bz_new_safe p : I p -> safe True (bz_new cd par bufsize p gas) z_opened.
Proof.
  intros HI. unfold bz_new, bz_checkMagic. cbv zeta. pose proof (posle p HI). eapply safe_bind with (Q := fun '(p2, _) => I p2).
  { apply magic_reset; [exact HI|lia|unfold INT32_MIN, INT32_MAX; lia..|]. intros p2 n b H2. destruct (n <? 10); exact H2. }
  intros (p2 & ok) H2. destruct ok; [apply z_opened_ready; exact H2|]. cbn [safe]. split; [exact H2|left; reflexivity].
Qed.
Lemma gz_new_safe p : I p -> safe True (gz_new cd par bufsize true p gas) z_opened.
Proof.
  intros HI. unfold gz_new, gz_checkMagic. cbv zeta. pose proof (posle p HI). eapply safe_bind with (Q := fun '(p2, _) => I p2).
  { apply magic_reset; [exact HI|lia|unfold INT32_MIN, INT32_MAX; lia..|]. intros p2 n b H2. destruct (negb _); [exact H2|]. destruct b as [|b0 [|b1 b]]; try exact Logic.I. exact H2. }
  intros (p2 & ok) H2. destruct ok; [apply z_opened_ready; exact H2|]. cbn [safe]. split; [exact H2|left; reflexivity].
Qed.
End Z.

(** *** LZMA *)
Section L.
Context {D : Type}.
Variables (cd : lzcodec D) (DI : D -> Z -> Z -> Prop).
Hypothesis Hcd : sane_lzcodec cd X DI.
Notation lJ := (l_J DI I I pl B).
Notation lK := (fun s : lstate D P => I (l_par s)).
Lemma l_layer : TameSrc (l_src cd par) None (X * (B + 1)) True lJ lK.
Proof.
  apply l_tame; [exact Hcd|exact HX| |].
  - intros q Hq. pose proof (posle q Hq). unfold pl. split; [exact Hq|lia].
  - intros q Hq. eapply safe_impl; [apply (pl_read q Hq)|tauto|]. intros ((q' & m) & d) (R1 & R2). split; [exact R1|]. intros Hm. destruct (R2 Hm) as (A1 & A2 & A3 & A4). auto.
Qed.
Variable cap : Z.
Hypothesis Hcap0 : 0 <= cap.
Hypothesis Hcap : TameSrc (l_src cd par) None cap True lJ lK.
Lemma l_new_safe p : I p -> safe True (l_new cd par bufsize alloc_ok p gas) (fun x => I (l_par (bs_src x)) /\ (bs_st x = Error \/ tI None cap lJ lK x /\ bs_st x = Ok)).
Proof.
  intros HI. unfold l_new. eapply safe_bind; [apply rd; [exact HI|unfold INT32_MIN, INT32_MAX; lia..]|]. intros ((p2 & n) & b) H2.
  eapply safe_bind with (Q := fun _ => True); [destruct (n =? 13); [apply lzma_check_runs|exact Logic.I]|]. intros ok _.
  eapply safe_bind with (Q := fun _ => True); [destruct ok; [unfold rd_size; apply runs_bind; [apply rd_le_runs|intros; exact Logic.I]|exact Logic.I]|]. intros size _. cbv zeta.
  destruct (_ || _) eqn:Eo; [cbn [safe]; split; [exact H2|left; reflexivity]|]. apply orb_false_iff in Eo. destruct Eo as (_ & Eo). apply Z.ltb_ge in Eo. pose proof (posle p2 H2) as Hp2.
  destruct (tI_init _ _ _ _ _ _ Hcap (mkL p2 (l_init cd) [] 0 size gas) (l_mu (mkL p2 (l_init cd) [] 0 size gas)) size bufsize) as (b' & E & HJ).
  - unfold l_J. cbn [l_par l_dec l_win l_bytes l_size l_gas]. split; [exact H2|]. split; [reflexivity|]. split; [lia|]. split; [reflexivity|]. split; [lia|]. split; [exact H2|]. split; [unfold pl; lia|].
    exists 0. split; [apply (sl_init _ _ _ Hcd)|]. split; [lia|]. unfold pl. change (zlen (@nil Z)) with 0. lia.
  - exact Hcap0.
  - exact Hbuf.
  - unfold setMinBufSize. cbn [bs_buf bs_fin bs_src bs_size bs_pos bs_st].
    destruct (makeSpace buf0 bufsize) as [(b2 & sp)| | |]; cbn [bind safe] in *; try discriminate. injection E as <-. split; [exact H2|right]. split; [exact HJ|reflexivity].
Qed.
End L.
End Layers.
