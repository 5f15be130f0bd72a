(** A decompression library for "[m] followed by a stream of another format", given one for that
    format.  Only used to show that the assumptions about libraries can be met
    together with the magic bytes of gzip and bzip2. *)
From Verif Require Import Base StreamSpec M_Ar P_Cpio M_Inflate InflateSpec.

Section Magic.
Variables (m : list Z).
Hypothesis m_ne : m <> [].
Context {D : Type}.
Variables (f : format) (cd : codec D) (DI : D -> list Z -> list Z -> Prop).

Inductive mstate := MHead (rest : list Z) | MIn (d : D) | MBad.
Fixpoint match_hdr (r w : list Z) : option (list Z * list Z) :=
  match r, w with
  | [], w => Some ([], w)
  | r, [] => Some (r, [])
  | a :: r, c :: w => if a =? c then match_hdr r w else None
  end.
Definition m_in (c : D * Z * list Z * code) (k0 : Z) : mstate * Z * list Z * code :=
  let '(d, k, y, r) := c in (MIn d, k0 + k, y, r).
Definition m_step (s : mstate) (w : list Z) (space : Z) : mstate * Z * list Z * code :=
  match s with
  | MBad => (MBad, 0, [], Bad)
  | MIn d => m_in (c_step cd d w space) 0
  | MHead r => match match_hdr r w with
               | None => (MBad, 0, [], Bad)
               | Some ([], w') => m_in (c_step cd (c_init cd) w' space) (zlen w - zlen w')
               | Some (r', _) => (MHead r', zlen w, [], More)
               end
  end.
Definition magic_codec : codec mstate := mkCodec _ (MHead m) m_step.
Definition magic_format : format :=
  mkFormat (fun c x => exists c', c = m ++ c' /\ fmt f c' x)
           (fun r => if list_eqb (firstn (length m) r) m then dec f (skipn (length m) r) else []).
Definition magic_DI (s : mstate) (u o : list Z) : Prop :=
  match s with
  | MHead r => m = u ++ r /\ r <> [] /\ o = []
  | MIn d => exists u', u = m ++ u' /\ DI d u' o
  | MBad => False
  end.
Lemma match_spec r : forall w,
  match match_hdr r w with
  | None => forall t a, r ++ a <> w ++ t
  | Some (r', w') => exists p, r = p ++ r' /\ w = p ++ w' /\ (r' = [] \/ w' = [])
  end.
Proof.
  induction r as [|a r IH]; intros w; [cbn; exists []; auto|].
  destruct w as [|c w]; cbn [match_hdr]; [exists []; auto|]. destruct (Z.eqb_spec a c) as [->|N].
  - specialize (IH w). destruct (match_hdr r w) as [[r' w']|].
    + destruct IH as (p & -> & -> & H). exists (c :: p). auto.
    + intros t b E. cbn [app] in E. injection E as E. exact (IH t b E).
  - intros t b E. cbn [app] in E. congruence.
Qed.
Lemma magic_dec r : dec magic_format (m ++ r) = dec f r.
Proof.
  cbn [dec magic_format]. rewrite firstn_app, Nat.sub_diag, firstn_all, firstn_O, app_nil_r, list_eqb_refl.
  rewrite skipn_app, skipn_all, Nat.sub_diag. reflexivity.
Qed.
Lemma m_in_ok d u' o w pre k0 space s' k y r : codec_ok f cd DI -> DI d u' o -> 1 <= space -> k0 = zlen pre -> m_in (c_step cd d w space) k0 = (s', k, y, r) ->
  forall u, u ++ pre = m ++ u' ->
    0 <= k <= zlen (pre ++ w) /\ zlen y <= space /\ (forall t, prefix (o ++ y) (dec magic_format (u ++ (pre ++ w) ++ t))) /\
    match r with
    | More => magic_DI s' (u ++ firstn (Z.to_nat k) (pre ++ w)) (o ++ y) /\
              (zlen y = space \/ k = zlen (pre ++ w) /\ forall x, ~ fmt magic_format (u ++ pre ++ w) x)
    | End => fmt magic_format (u ++ firstn (Z.to_nat k) (pre ++ w)) (o ++ y)
    | Bad => (forall t a b x, u ++ (pre ++ w) ++ t = a ++ b -> ~ fmt magic_format a x) /\
             (forall w' sp, exists d'' k', c_step magic_codec s' w' sp = (d'', k', [], Bad))
    end.
Proof.
  intros Hc HD Hs Hk E u Hu. unfold m_in in E. destruct (c_step cd d w space) as [[[d1 k1] y1] r1] eqn:Es. injection E as <- <- <- <-.
  destruct (co_step _ _ _ Hc d u' o w space d1 k1 y1 r1 HD Hs Es) as (C1 & C2 & C3 & C4). pose proof (zlen_nonneg pre).
  assert (u ++ firstn (Z.to_nat (k0 + k1)) (pre ++ w) = m ++ u' ++ firstn (Z.to_nat k1) w) as Ef.
  { rewrite Hk, firstn_app. rewrite firstn_all2 by (unfold zlen; lia). replace (Z.to_nat (zlen pre + k1) - length pre)%nat with (Z.to_nat k1) by (unfold zlen; lia).
    rewrite app_assoc, Hu, <- app_assoc. reflexivity. }
  assert (forall t, u ++ (pre ++ w) ++ t = m ++ u' ++ w ++ t) as Eg by (intros t; rewrite <- app_assoc, (app_assoc u), Hu, <- app_assoc; reflexivity).
  rewrite zlen_app. split; [lia|]. split; [lia|]. split; [intros t; rewrite Eg, magic_dec; apply C3|].
  rewrite Ef. destruct r1.
  - destruct C4 as (C4 & C5). split; [exists (u' ++ firstn (Z.to_nat k1) w); auto|]. destruct C5 as [C5|(C5 & C6)]; [left; exact C5|right]. split; [lia|].
    specialize (Eg []). rewrite !app_nil_r in Eg. rewrite Eg. intros x (c' & Q1 & Q2). apply app_inv_head in Q1. subst c'. exact (C6 x Q2).
  - exists (u' ++ firstn (Z.to_nat k1) w). auto.
  - destruct C4 as (C4 & C5). split.
    + intros t a b x Hab (c' & -> & Q). rewrite Eg in Hab. rewrite <- app_assoc in Hab. apply app_inv_head in Hab. exact (C4 t c' b x Hab Q).
    + intros w' sp. destruct (C5 w' sp) as (d2 & k2 & E2). cbn [c_step magic_codec m_step]. unfold m_in. rewrite E2. eauto.
Qed.
Lemma magic_ok_codec : codec_ok f cd DI -> codec_ok magic_format magic_codec magic_DI.
Proof.
  intros Hc. destruct (co_format _ _ _ Hc) as [F1 F2 F3]. split.
  - split.
    + intros x (c' & E & _). destruct m; [congruence|discriminate].
    + intros a t x y (c1 & -> & H1) (c2 & E & H2). rewrite <- app_assoc in E. apply app_inv_head in E. subst c2. exact (F2 _ _ _ _ H1 H2).
    + intros a t x (c1 & -> & H1). rewrite <- app_assoc, magic_dec. apply F3. exact H1.
  - cbn. auto.
  - intros s u o HD a b x Hu Hb (c' & -> & Q). destruct s; cbn [magic_DI] in HD; [| |contradiction].
    + destruct HD as (E1 & E2 & _). apply (f_equal (@length Z)) in E1, Hu. rewrite !app_length in *. destruct rest; [congruence|]. destruct b; [congruence|]. cbn [length] in *. lia.
    + destruct HD as (u' & -> & HD). rewrite <- app_assoc in Hu. apply app_inv_head in Hu. exact (co_unended _ _ _ Hc _ _ _ HD _ _ _ Hu Hb Q).
  - intros s u o w space s' k y r HD Hs E. destruct s as [rst|d|]; cbn [magic_DI] in HD; [| |contradiction]; cbn [c_step magic_codec m_step] in E.
    + destruct HD as (E1 & E2 & ->). assert (HM := match_spec rst w). destruct (match_hdr rst w) as [[r' w']|] eqn:Em.
      * destruct HM as (p & -> & -> & HM). destruct r' as [|c r'].
        -- rewrite app_nil_r in E1. 
           assert (HH := m_in_ok (c_init cd) [] [] w' p _ space s' k y r Hc (co_init _ _ _ Hc) Hs eq_refl).
           rewrite zlen_app in E. replace (zlen p + zlen w' - zlen w') with (zlen p) in E by lia. specialize (HH E u). rewrite app_nil_r in HH. exact (HH (eq_sym E1)).
        -- destruct HM as [HM| ->]; [discriminate|]. rewrite app_nil_r in *. injection E as <- <- <- <-. pose proof (zlen_nonneg p).
           split; [lia|]. split; [change (zlen (@nil Z)) with 0; lia|]. split; [intros t; eexists; reflexivity|].
           rewrite firstn_all2 by (unfold zlen; lia). split; [cbn [magic_DI]; rewrite <- app_assoc; split; [exact E1|split; [discriminate|reflexivity]]|]. right. split; [reflexivity|].
           intros x (c' & Q & _). apply (f_equal (@length Z)) in Q, E1. rewrite !app_length in *. cbn [length] in *. lia.
      * injection E as <- <- <- <-. pose proof (zlen_nonneg w). split; [lia|]. split; [change (zlen (@nil Z)) with 0; lia|]. split; [intros t; eexists; reflexivity|].
        split; [|intros; exists MBad, 0; reflexivity]. intros t a b x Hab (c' & -> & _). rewrite E1, <- !app_assoc in Hab. apply app_inv_head in Hab. exact (HM t (c' ++ b) (eq_sym Hab)).
    + destruct HD as (u' & -> & HD). assert (HH := m_in_ok d u' o w [] 0 space s' k y r Hc HD Hs eq_refl E (m ++ u') (app_nil_r _)). cbn [app] in HH. exact HH.
Qed.
End Magic.
