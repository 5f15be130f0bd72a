From Verif Require Import Base M_Kmp B64Spec M_Base64 P_Base64 T_Base64 M_Mail MailSpec.

Lemma rdc_app A c R : rdc (A ++ c :: R) (zlen A) = Ret c.
Proof. unfold rdc. rewrite zget_app. rewrite Z.ltb_irrefl, Z.sub_diag. reflexivity. Qed.
Lemma rdc_at m A c R i : m = A ++ c :: R -> i = zlen A -> rdc m i = Ret c.
Proof. intros -> ->. apply rdc_app. Qed.
Lemma rdc_in m i : 0 <= i < zlen m -> exists c, rdc m i = Ret c.
Proof. intros H. destruct (zget_some m i H) as (c & E). exists c. unfold rdc. rewrite E. reflexivity. Qed.
Lemma slice_at {T} (A B R : list T) o n : o = zlen A -> n = zlen B -> slice (A ++ B ++ R) o n = B.
Proof. intros -> ->. rewrite slice_app_r by lia. rewrite Z.sub_diag, slice_app_l by lia. apply slice_all. Qed.

(** what the quoted printable decoder computes *)
Fixpoint qpt (l : list Z) : list Z :=
  match l with
  | [] => []
  | c :: r =>
      if c =? 61 then match r with
                      | a :: b :: t => if isxdigit a && isxdigit b then (decodeHex a * 16 + decodeHex b) mod 256 :: qpt t else c :: qpt r
                      | _ => c :: qpt r
                      end
      else if c =? 95 then 32 :: qpt r else c :: qpt r
  end.
Lemma qp_loop_ok m : forall fuel R A B dec, m = A ++ B ++ R -> (length R <= fuel)%nat ->
  exists pos d, qp_loop fuel m (zlen m) (zlen A + zlen B) (zlen A) dec = Ret (pos, d) /\ 0 <= pos <= zlen m /\
    (if pos <? zlen m then d ++ slice m pos (zlen m - pos) else d) = dec ++ B ++ qpt R.
Proof.
  induction fuel as [|fuel IH]; intros R A B dec Em Hf.
  - destruct R; [|cbn in Hf; lia]. pose proof (zlen_nonneg A). pose proof (zlen_nonneg B). cbn [qp_loop]. rewrite app_nil_r in Em. destruct (Z.ltb_spec (zlen A + zlen B) (zlen m)) as [H1|H1]; [rewrite Em, zlen_app in H1; lia|].
    do 2 eexists. split; [reflexivity|]. rewrite Em, zlen_app. split; [lia|]. cbn [qpt]. rewrite app_nil_r. destruct (Z.ltb_spec (zlen A) (zlen A + zlen B)).
    + rewrite slice_app_r by lia. rewrite Z.sub_diag. replace (zlen A + zlen B - zlen A) with (zlen B) by lia. rewrite slice_all. reflexivity.
    + assert (B = []) as -> by (apply zlen_0_nil; lia). rewrite app_nil_r. reflexivity.
  - destruct R as [|c R].
    { pose proof (zlen_nonneg A). pose proof (zlen_nonneg B). cbn [qp_loop]. rewrite app_nil_r in Em. destruct (Z.ltb_spec (zlen A + zlen B) (zlen m)) as [H1|H1]; [rewrite Em, zlen_app in H1; lia|].
    do 2 eexists. split; [reflexivity|]. rewrite Em, zlen_app. split; [lia|]. cbn [qpt]. rewrite app_nil_r. destruct (Z.ltb_spec (zlen A) (zlen A + zlen B)).
    + rewrite slice_app_r by lia. rewrite Z.sub_diag. replace (zlen A + zlen B - zlen A) with (zlen B) by lia. rewrite slice_all. reflexivity.
    + assert (B = []) as -> by (apply zlen_0_nil; lia). rewrite app_nil_r. reflexivity. }
    pose proof (zlen_nonneg A). pose proof (zlen_nonneg B). pose proof (zlen_nonneg R).
    assert (zlen m = zlen A + zlen B + 1 + zlen R) as Hm by (rewrite Em, !zlen_app, zlen_cons; lia).
    assert (length R <= fuel)%nat as Hf' by (cbn in Hf; lia).
    cbn [qp_loop]. destruct (Z.ltb_spec (zlen A + zlen B) (zlen m)); [|lia].
    assert (m = (A ++ B) ++ c :: R) as Em' by (rewrite Em, <- app_assoc; reflexivity).
    rewrite (rdc_at _ _ _ _ _ Em') by (rewrite zlen_app; lia). cbn [bind].
    assert (slice m (zlen A) (zlen A + zlen B - zlen A) = B) as HB by (rewrite Em; apply slice_at; lia).
    (* nothing special at c *)
    assert (forall X, qpt (c :: R) = c :: qpt R -> X = qp_loop fuel m (zlen m) (zlen A + zlen B + 1) (zlen A) dec -> exists pos d, X = Ret (pos, d) /\ 0 <= pos <= zlen m /\
       (if pos <? zlen m then d ++ slice m pos (zlen m - pos) else d) = dec ++ B ++ qpt (c :: R)) as Plain.
    { intros X HX ->. destruct (IH R A (B ++ [c]) dec) as (pos & d & E & HP & E2); [rewrite Em, <- app_assoc; reflexivity|lia|].
      exists pos, d. rewrite zlen_app in E. change (zlen [c]) with 1 in E. rewrite Z.add_assoc in E. split; [exact E|]. split; [exact HP|]. rewrite E2, HX, <- app_assoc. reflexivity. }
    destruct (Z.eqb_spec c 61) as [->|Nc]; cbn [andb].
    + destruct (Z.ltb_spec 2 (zlen m - (zlen A + zlen B))) as [H3|H3]; cbn [bind].
      * destruct R as [|a [|b t]]; [change (zlen (@nil Z)) with 0 in *; lia|change (zlen [a]) with 1 in *; lia|].
        assert (m = (A ++ B ++ [61]) ++ a :: b :: t) as Ea by (rewrite Em, <- !app_assoc; reflexivity).
        assert (m = (A ++ B ++ [61;a]) ++ b :: t) as Eb by (rewrite Em, <- !app_assoc; reflexivity).
        rewrite (rdc_at _ _ _ _ (zlen A + zlen B + 1) Ea) by (rewrite !zlen_app; change (zlen [61]) with 1; lia).
        rewrite (rdc_at _ _ _ _ (zlen A + zlen B + 2) Eb) by (rewrite !zlen_app; change (zlen [61;a]) with 2; lia). cbn [bind].
        destruct (isxdigit a) eqn:Xa; cbn [bind]; [|apply Plain; [cbn [qpt]; cbn [Z.eqb Pos.eqb]; rewrite Xa; reflexivity|reflexivity]].
        destruct (isxdigit b) eqn:Xb; cbn [bind]; [|apply Plain; [cbn [qpt]; cbn [Z.eqb Pos.eqb]; rewrite Xa, Xb; reflexivity|reflexivity]].
        rewrite HB. destruct (IH t (A ++ B ++ [61;a;b]) [] (dec ++ B ++ [(decodeHex a * 16 + decodeHex b) mod 256])) as (pos & d & E & HP & E2); [rewrite Em, <- !app_assoc; reflexivity|cbn in Hf; lia|].
        exists pos, d. rewrite !zlen_app in E. change (zlen [61;a;b]) with 3 in E. change (zlen (@nil Z)) with 0 in E.
        replace (zlen A + (zlen B + 3) + 0) with (zlen A + zlen B + 3) in E by lia. replace (zlen A + (zlen B + 3)) with (zlen A + zlen B + 3) in E by lia.
        split; [exact E|]. split; [exact HP|]. rewrite E2, <- !app_assoc. cbn [qpt app]. cbn [Z.eqb Pos.eqb]. rewrite Xa, Xb. reflexivity.
      * cbn [Z.eqb Pos.eqb]. apply Plain; [|reflexivity]. destruct R as [|a [|b t]]; try reflexivity. rewrite !zlen_cons in *. pose proof (zlen_nonneg t). lia.
    + cbn [bind]. destruct (Z.eqb_spec c 95) as [->|Nc2].
      * rewrite HB. destruct (IH R (A ++ B ++ [95]) [] (dec ++ B ++ [32])) as (pos & d & E & HP & E2); [rewrite Em, <- !app_assoc; reflexivity|lia|].
        exists pos, d. rewrite !zlen_app in E. change (zlen [95]) with 1 in E. change (zlen (@nil Z)) with 0 in E.
        replace (zlen A + (zlen B + 1) + 0) with (zlen A + zlen B + 1) in E by lia. replace (zlen A + (zlen B + 1)) with (zlen A + zlen B + 1) in E by lia.
        split; [exact E|]. split; [exact HP|]. rewrite E2, <- !app_assoc. reflexivity.
      * apply Plain; [|reflexivity]. cbn [qpt]. destruct (Z.eqb_spec c 61); [lia|]. destruct (Z.eqb_spec c 95); [lia|]. reflexivity.
Qed.
Lemma qp_ok t : decodeQuotedPrintable t (zlen t) = Ret (qpt t).
Proof.
  unfold decodeQuotedPrintable. destruct (qp_loop_ok t (Z.to_nat (zlen t)) t [] [] []) as (pos & d & E & HP & E2); [reflexivity|unfold zlen; lia|].
  change (zlen (@nil Z)) with 0 in E. change (0 + 0) with 0 in E. rewrite E. cbn [bind]. rewrite E2. reflexivity.
Qed.
Lemma hexdigit_ok h a : hexdigit h a -> isxdigit a = true /\ decodeHex a = h /\ 0 <= h <= 15.
Proof.
  intros [(H1 & ->)|(H1 & [-> | ->])]; unfold isxdigit, decodeHex.
  - split; [|split; [|lia]]. + destruct (Z.leb_spec 48 (48 + h)), (Z.leb_spec (48 + h) 57); try lia; reflexivity.
    + destruct (Z.leb_spec 65 (48 + h)); [lia|]. destruct (Z.leb_spec 97 (48 + h)); [lia|]. cbn [andb]. lia.
  - split; [|split; [|lia]]. + destruct (Z.leb_spec 65 (55 + h)), (Z.leb_spec (55 + h) 70); try lia; cbn [andb]; rewrite ?orb_true_r; reflexivity.
    + destruct (Z.leb_spec 65 (55 + h)), (Z.leb_spec (55 + h) 70); try lia. cbn [andb]. lia.
  - split; [|split; [|lia]]. + destruct (Z.leb_spec 97 (87 + h)), (Z.leb_spec (87 + h) 102); try lia; cbn [andb]; rewrite ?orb_true_r; reflexivity.
    + destruct (Z.leb_spec 65 (87 + h)), (Z.leb_spec (87 + h) 70), (Z.leb_spec 97 (87 + h)), (Z.leb_spec (87 + h) 102); try lia. cbn [andb]. lia.
Qed.
Lemma qpt_encodes x t : q_encodes x t -> qpt t = x.
Proof.
  induction 1 as [|x h l a b t Ha Hb H IH|x t H IH|c x t N1 N2 H IH].
  - reflexivity.
  - destruct (hexdigit_ok _ _ Ha) as (A1 & A2 & A3), (hexdigit_ok _ _ Hb) as (B1 & B2 & B3). cbn [qpt]. change (61 =? 61) with true. cbv iota. rewrite A1, B1, A2, B2. cbn [andb]. rewrite IH. f_equal. rewrite Z.mod_small by lia. lia.
  - cbn [qpt]. change (95 =? 61) with false. change (95 =? 95) with true. cbv iota. rewrite IH. reflexivity.
  - cbn [qpt]. destruct (Z.eqb_spec c 61); [lia|]. destruct (Z.eqb_spec c 95); [lia|]. rewrite IH. reflexivity.
Qed.

(** finding '?' *)
Lemma find_q_at m e : forall Q A R fuel i, m = A ++ Q ++ 63 :: R -> ~ In 63 Q -> i = zlen A -> zlen A + zlen Q < e -> (length Q < fuel)%nat -> find_q fuel m e i = Ret (zlen A + zlen Q).
Proof.
  induction Q as [|c Q IH]; intros A R fuel i Em Hn -> He Hf; destruct fuel as [|fuel]; try (cbn in Hf; lia); cbn [find_q].
  - change (zlen (@nil Z)) with 0 in *. rewrite Z.add_0_r in *. destruct (Z.ltb_spec (zlen A) e); [|lia]. cbn [app] in Em. rewrite (rdc_at _ _ _ _ _ Em eq_refl). reflexivity.
  - rewrite zlen_cons in *. pose proof (zlen_nonneg Q). destruct (Z.ltb_spec (zlen A) e); [|lia]. cbn [app] in Em. rewrite (rdc_at _ _ _ _ _ Em eq_refl). cbn [bind].
    destruct (Z.eqb_spec c 63) as [->|]; [exfalso; apply Hn; left; reflexivity|].
    rewrite (IH (A ++ [c]) R fuel (zlen A + 1)); [| |intros HI; apply Hn; right; exact HI| | |cbn in Hf; lia]; rewrite ?zlen_app; change (zlen [c]) with 1.
    + f_equal. lia. + rewrite Em, <- app_assoc. reflexivity. + lia. + lia.
Qed.
Lemma find_q_total m e : 0 <= e <= zlen m -> forall fuel i, 0 <= i -> (Z.to_nat (e - i) <= fuel)%nat -> exists j, find_q fuel m e i = Ret j /\ i <= j /\ (j < e -> rdc m j = Ret 63).
Proof.
  intros He. induction fuel as [|fuel IH]; intros i Hi Hf; cbn [find_q]; destruct (Z.ltb_spec i e); try lia.
  - exists i. split; [reflexivity|]. split; lia.
  - destruct (rdc_in m i ltac:(lia)) as (c & Ec). rewrite Ec. cbn [bind]. destruct (Z.eqb_spec c 63) as [->|].
    + exists i. split; [reflexivity|]. split; [lia|intros; exact Ec].
    + destruct (IH (i + 1) ltac:(lia) ltac:(lia)) as (j & E & H1 & H2). exists j. split; [exact E|]. split; [lia|exact H2].
  - exists i. split; [reflexivity|]. split; lia.
Qed.
(** utf-8 *)
Lemma tolower_lower c : tolower c = lower c. Proof. reflexivity. Qed.
Lemma lower_63 c : lower c = 63 <-> c = 63.
Proof. unfold lower. destruct (Z.leb_spec 65 c), (Z.leb_spec c 90); cbn [andb]; lia. Qed.
Lemma strncase_ok : forall s Q A R m o, m = A ++ Q ++ 63 :: R -> o = zlen A -> map lower s = s -> ~ In 63 s ->
  exists u, strncase_eq s m o = Ret u /\ (u = true <-> exists r, map lower Q = s ++ r).
Proof.
  induction s as [|c s IH]; intros Q A R m o Em -> Hs Hn; cbn [strncase_eq].
  - exists true. split; [reflexivity|]. split; [intros _; exists (map lower Q); reflexivity|reflexivity].
  - injection Hs as Hc Hs. destruct Q as [|d Q].
    + cbn [app] in Em. rewrite (rdc_at _ _ _ _ _ Em eq_refl). cbn [bind]. change (tolower c) with (lower c). change (tolower 63) with 63. rewrite Hc.
      destruct (Z.eqb_spec c 63) as [->|]; [exfalso; apply Hn; left; reflexivity|]. exists false. split; [reflexivity|]. split; [discriminate|intros (r & H); discriminate].
    + cbn [app] in Em. rewrite (rdc_at _ _ _ _ _ Em eq_refl). cbn [bind]. change (tolower c) with (lower c). change (tolower d) with (lower d). rewrite Hc.
      destruct (Z.eqb_spec c (lower d)) as [Ec|Nc].
      * destruct (IH Q (A ++ [d]) R m (zlen A + 1)) as (u & Eu & Hu); [rewrite Em, <- app_assoc; reflexivity|rewrite zlen_app; reflexivity|exact Hs|intros HI; apply Hn; right; exact HI|].
        exists u. split; [exact Eu|]. rewrite Hu. cbn [map]. split; intros (r & H); exists r; [rewrite <- Ec, H; reflexivity|]. cbn [app] in H. injection H as _ H. exact H.
      * exists false. split; [reflexivity|]. split; [discriminate|]. intros (r & H). cbn [map app] in H. injection H as H _. congruence.
Qed.
(** base64 text has no '?' *)
Lemma b64char_noq v : 0 <= v < 64 -> b64char v <> 63.
Proof.
  intros H. unfold b64char. destruct (Z.ltb_spec v 26); [lia|]. destruct (Z.ltb_spec v 52); [lia|]. destruct (Z.ltb_spec v 62); [lia|]. destruct (Z.eqb_spec v 62); lia.
Qed.
Lemma b64encode_noq n : forall x, (length x <= n)%nat -> Forall byte x -> noq (b64encode x).
Proof.
  assert (forall a, byte a -> 0 <= a / 4 < 64 /\ 0 <= a / 16 < 16 /\ 0 <= a / 64 < 4 /\ 0 <= a mod 4 < 4 /\ 0 <= a mod 16 < 16 /\ 0 <= a mod 64 < 64) as D.
  { intros a Ha. unfold byte in Ha. pose proof (Z.div_lt_upper_bound a 4 64). pose proof (Z.div_lt_upper_bound a 16 16). pose proof (Z.div_lt_upper_bound a 64 4).
    pose proof (Z.div_pos a 4). pose proof (Z.div_pos a 16). pose proof (Z.div_pos a 64). pose proof (Z.mod_pos_bound a 4). pose proof (Z.mod_pos_bound a 16). pose proof (Z.mod_pos_bound a 64). lia. }
  unfold noq. induction n as [|n IH]; intros x Hl HB.
  - destruct x; [|cbn in Hl; lia]. intros [].
  - destruct x as [|a [|b [|c x]]]; cbn [b64encode].
    + intros [].
    + assert (byte a) as Ha by (inversion HB; assumption). specialize (D a Ha). intros [X|[X|[X|[X|[]]]]]; try discriminate; revert X; apply b64char_noq; lia.
    + inversion HB as [|? ? Ha HB']; subst. inversion HB' as [|? ? Hb _]; subst. pose proof (D a Ha). pose proof (D b Hb). intros [X|[X|[X|[X|[]]]]]; try discriminate; revert X; apply b64char_noq; lia.
    + inversion HB as [|? ? Ha HB']; subst. inversion HB' as [|? ? Hb HB'']; subst. inversion HB'' as [|? ? Hc HB3]; subst. pose proof (D a Ha). pose proof (D b Hb). pose proof (D c Hc).
      intros [X|[X|[X|[X|X]]]]; try (revert X; apply b64char_noq; lia). revert X. apply IH; [cbn in Hl; lia|exact HB3].
Qed.

Section Header.
Context {C : Type}.
Variable iconv : C -> list Z -> list Z -> C * option (list Z).
Variable conv : list Z -> list Z -> list Z.
Hypothesis Hconv : forall c enc x, x <> [] -> (match snd (iconv c enc x) with Some d => d | None => x end) = conv enc x.

Lemma decode_ok c enc x : x <> [] -> exists c', decode iconv c enc x = (c', conv enc x).
Proof.
  intros H. unfold decode. destruct x as [|a x]; [congruence|]. specialize (Hconv c enc (a :: x) H). destruct (iconv c enc (a :: x)) as [c' r]. cbn [snd] in Hconv. exists c'. rewrite Hconv. reflexivity.
Qed.
Lemma word_ok c m A charset Y q2 fin x : m = A ++ charset ++ 63 :: Y -> x <> [] ->
  exists c' w, word iconv c m (zlen A) (zlen A + zlen charset + 1) q2 fin x = Ret (c', w) /\
    (is_utf8 charset -> w = x) /\ (~ utf8_prefix charset -> w = conv charset x).
Proof.
  intros Em Hx. unfold word. destruct (strncase_ok utf8_name charset A Y m (zlen A) Em eq_refl eq_refl) as (u & Eu & Hu).
  { intros [H|[H|[H|[H|[H|[]]]]]]; discriminate. }
  rewrite Eu. cbn [bind]. destruct u.
  - do 2 eexists. split; [reflexivity|]. split; [reflexivity|]. intros HN. exfalso. apply HN. apply Hu. reflexivity.
  - replace (zlen A + zlen charset + 1 - zlen A - 1) with (zlen charset) by lia. rewrite Em, slice_at by reflexivity.
    destruct (decode_ok c charset x Hx) as (c' & Ec). rewrite Ec. do 2 eexists. split; [reflexivity|]. split; [|reflexivity].
    intros HU. exfalso. assert (false = true) as X; [|discriminate]. apply Hu. exists []. rewrite app_nil_r. exact HU.
Qed.
Lemma encodes_decoded k text x : encodes k text x -> noq text /\ text <> [] /\
  ((k = 98 \/ k = 66) /\ b64_decode text = Ret x \/ (k = 113 \/ k = 81) /\ decodeQuotedPrintable text (zlen text) = Ret x).
Proof.
  intros [k' x' t Hk Hq Hn Hx|k' x' Hk HB Hx].
  - split; [exact Hn|]. split; [intros ->; inversion Hq; subst; congruence|]. right. split; [tauto|]. rewrite qp_ok. f_equal. apply qpt_encodes. exact Hq.
  - split; [apply (b64encode_noq (length x')); [lia|exact HB]|]. split; [|left; split; [tauto|apply C13_decode_encode; assumption]].
    destruct x' as [|? [|? [|? ?]]]; [congruence|discriminate|discriminate|discriminate].
Qed.
Lemma header_run m e : forall R d, header_text conv R d -> forall A B X c dec fuel, m = A ++ B ++ R ++ X -> e = zlen A + zlen B + zlen R -> (length R <= fuel)%nat ->
  exists c' p d', header_loop iconv fuel c m e (zlen A + zlen B) (zlen A) dec = Ret (c', p, d') /\ 0 <= p <= e /\
    (if p <? e then d' ++ slice m p (e - p) else d') = dec ++ B ++ d.
Proof.
  assert (forall charset k text x r d w, noq charset -> charset <> [] -> encodes k text x -> (is_utf8 charset /\ w = x \/ ~ utf8_prefix charset /\ w = conv charset x) ->
    (forall A B X c dec fuel, m = A ++ B ++ r ++ X -> e = zlen A + zlen B + zlen r -> (length r <= fuel)%nat ->
       exists c' p d', header_loop iconv fuel c m e (zlen A + zlen B) (zlen A) dec = Ret (c', p, d') /\ 0 <= p <= e /\ (if p <? e then d' ++ slice m p (e - p) else d') = dec ++ B ++ d) ->
    forall A B X c dec fuel, let R := [61;63] ++ charset ++ [63;k;63] ++ text ++ [63;61] ++ r in m = A ++ B ++ R ++ X -> e = zlen A + zlen B + zlen R -> (length R <= fuel)%nat ->
    exists c' p d', header_loop iconv fuel c m e (zlen A + zlen B) (zlen A) dec = Ret (c', p, d') /\ 0 <= p <= e /\ (if p <? e then d' ++ slice m p (e - p) else d') = dec ++ B ++ w ++ d) as Word.
  { intros charset k text x r d w Hcs Hcn Henc Hw IH A B X c dec fuel R Em He Hf. subst R.
    destruct (encodes_decoded _ _ _ Henc) as (Htn & Htne & Hdec).
    assert (x <> []) as Hx by (destruct Henc; assumption).
    pose proof (zlen_nonneg A). pose proof (zlen_nonneg B). pose proof (zlen_nonneg r). pose proof (zlen_nonneg X).
    assert (0 < zlen charset). { destruct charset; [congruence|]. rewrite zlen_cons. pose proof (zlen_nonneg charset). lia. }
    assert (0 < zlen text). { destruct text; [congruence|]. rewrite zlen_cons. pose proof (zlen_nonneg text). lia. }
    rewrite !zlen_app in He. change (zlen [61;63]) with 2 in He. change (zlen [63;k;63]) with 3 in He. change (zlen [63;61]) with 2 in He.
    rewrite !app_length in Hf. cbn [length] in Hf. destruct fuel as [|fuel]; [lia|].
    assert (zlen m = e + zlen X) as Hm. { rewrite Em, !zlen_app. change (zlen [61;63]) with 2. change (zlen [63;k;63]) with 3. change (zlen [63;61]) with 2. lia. }
    cbn [header_loop]. set (s := zlen A + zlen B). destruct (Z.ltb_spec s e); [|unfold s in *; lia].
    (* the memory, seen from each place *)
    assert (m = (A ++ B) ++ 61 :: (63 :: charset ++ [63;k;63] ++ text ++ [63;61] ++ r ++ X)) as E0 by (rewrite Em; cbn [app]; rewrite <- ?app_assoc; cbn [app]; rewrite <- ?app_assoc; reflexivity).
    assert (m = (A ++ B ++ [61]) ++ 63 :: (charset ++ [63;k;63] ++ text ++ [63;61] ++ r ++ X)) as E1 by (rewrite E0, <- !app_assoc; reflexivity).
    assert (m = (A ++ B ++ [61;63]) ++ charset ++ 63 :: (k :: 63 :: text ++ [63;61] ++ r ++ X)) as E2 by (rewrite E0, <- !app_assoc; reflexivity).
    assert (m = (A ++ B ++ [61;63] ++ charset ++ [63]) ++ k :: (63 :: text ++ [63;61] ++ r ++ X)) as E3 by (rewrite E0, <- !app_assoc; reflexivity).
    assert (m = (A ++ B ++ [61;63] ++ charset ++ [63]) ++ [k] ++ 63 :: (text ++ [63;61] ++ r ++ X)) as E4 by (rewrite E0, <- !app_assoc; reflexivity).
    assert (m = (A ++ B ++ [61;63] ++ charset ++ [63;k;63]) ++ text ++ 63 :: (61 :: r ++ X)) as E5 by (rewrite E0, <- !app_assoc; reflexivity).
    assert (m = (A ++ B ++ [61;63] ++ charset ++ [63;k;63] ++ text ++ [63]) ++ 61 :: (r ++ X)) as E6 by (rewrite E0, <- !app_assoc; reflexivity).
    assert (m = (A ++ B ++ [61;63] ++ charset ++ [63;k;63] ++ text ++ [63;61]) ++ [] ++ r ++ X) as E7 by (rewrite E0, <- !app_assoc; reflexivity).
    assert (k <> 63) as Hk63 by (destruct Hdec as [([-> | ->] & _)|([-> | ->] & _)]; lia).
    rewrite (rdc_at _ _ _ _ s E0) by (rewrite zlen_app; reflexivity). cbn [bind].
    rewrite (rdc_at _ _ _ _ (s + 1) E1) by (rewrite !zlen_app; change (zlen [61]) with 1; unfold s; lia). cbn [bind].
    destruct (Z.ltb_spec 8 (e - s)); [|unfold s in *; lia]. change (61 =? 61) with true. change (63 =? 63) with true. cbn [andb bind].
    assert (Z.of_nat (length charset) = zlen charset /\ Z.of_nat (length text) = zlen text) as (Hlc & Hlt) by (split; reflexivity).
    rewrite (find_q_at m e charset _ _ (Z.to_nat e) (s + 2) E2 Hcs) by (rewrite ?zlen_app; change (zlen [61;63]) with 2; unfold s in *; lia). cbn [bind].
    assert (zlen (A ++ B ++ [61;63]) = s + 2) as L2 by (rewrite !zlen_app; change (zlen [61;63]) with 2; unfold s; lia). rewrite L2.
    assert (zlen (A ++ B ++ [61;63] ++ charset ++ [63]) = s + 2 + zlen charset + 1) as L3 by (rewrite !zlen_app; change (zlen [61;63]) with 2; change (zlen [63]) with 1; unfold s; lia).
    assert (zlen (A ++ B ++ [61;63] ++ charset ++ [63;k;63]) = s + 2 + zlen charset + 3) as L5 by (rewrite !zlen_app; change (zlen [61;63]) with 2; change (zlen [63;k;63]) with 3; unfold s; lia).
    assert (zlen (A ++ B ++ [61;63] ++ charset ++ [63;k;63] ++ text ++ [63]) = s + 2 + zlen charset + 3 + zlen text + 1) as L6 by (rewrite !zlen_app; change (zlen [61;63]) with 2; change (zlen [63;k;63]) with 3; change (zlen [63]) with 1; unfold s; lia).
    assert (zlen (A ++ B ++ [61;63] ++ charset ++ [63;k;63] ++ text ++ [63;61]) = s + 2 + zlen charset + 3 + zlen text + 2) as L7 by (rewrite !zlen_app; change (zlen [61;63]) with 2; change (zlen [63;k;63]) with 3; change (zlen [63;61]) with 2; unfold s; lia).
    rewrite (find_q_at m e [k] _ _ (Z.to_nat e) _ E4) by (rewrite ?L3; change (zlen [k]) with 1; cbn [length In]; unfold s in *; try lia). cbn [bind].
    rewrite L3. change (zlen [k]) with 1.
    rewrite (find_q_at m e text _ _ (Z.to_nat e) _ E5 Htn) by (rewrite ?L5; unfold s in *; try lia). cbn [bind]. rewrite L5.
    set (fin := s + 2 + zlen charset + 3 + zlen text). destruct (Z.ltb_spec (e - fin) 1); [unfold fin, s in *; lia|].
    rewrite (rdc_at _ _ _ _ (fin + 1) E6) by (rewrite L6; unfold fin; lia). cbn [bind]. change (negb (61 =? 61)) with false. cbn [bind]. cbv zeta.
    rewrite (rdc_at _ _ _ _ (s + 2 + zlen charset + 1) E3) by (rewrite L3; reflexivity). cbn [bind].
    assert (slice m (s + 2 + zlen charset + 1 + 1 + 1) (fin - (s + 2 + zlen charset + 1 + 1 + 1)) = text) as Et.
    { rewrite E5. apply slice_at; [rewrite L5; lia|unfold fin; lia]. }
    rewrite Et. replace (fin - (s + 2 + zlen charset + 1 + 1 + 1)) with (zlen text) by (unfold fin; lia).
    destruct (word_ok c m _ charset _ (s + 2 + zlen charset + 1 + 1 + 1) fin x E2 Hx) as (c' & w' & Ew & Hw1 & Hw2). rewrite L2 in Ew.
    assert (w' = w) as ->. { destruct Hw as [(U & ->)|(U & ->)]; auto. }
    assert (exists Z0, (if (k =? 98) || (k =? 66) then let* raw := (match text with [] => Ret [] | _ => b64_decode text end) in word iconv c m (s + 2) (s + 2 + zlen charset + 1) (s + 2 + zlen charset + 1 + 1 + 1) fin raw
       else if (k =? 113) || (k =? 81) then let* raw := decodeQuotedPrintable text (zlen text) in word iconv c m (s + 2) (s + 2 + zlen charset + 1) (s + 2 + zlen charset + 1 + 1 + 1) fin raw
       else Ret (c, [])) = Z0 /\ Z0 = Ret (c', w)) as (Z0 & Ez & Ez2).
    { eexists. split; [reflexivity|]. destruct Hdec as [(Hk & Ed)|(Hk & Ed)].
      - replace ((k =? 98) || (k =? 66)) with true by (destruct Hk as [-> | ->]; reflexivity). replace (match text with [] => Ret [] | _ => b64_decode text end) with (b64_decode text) by (destruct text; [congruence|reflexivity]).
        rewrite Ed. cbn [bind]. exact Ew.
      - replace ((k =? 98) || (k =? 66)) with false by (destruct Hk as [-> | ->]; reflexivity). replace ((k =? 113) || (k =? 81)) with true by (destruct Hk as [-> | ->]; reflexivity).
        rewrite Ed. cbn [bind]. exact Ew. }
    rewrite Ez, Ez2. cbn [bind].
    destruct (IH (A ++ B ++ [61;63] ++ charset ++ [63;k;63] ++ text ++ [63;61]) [] X c' ((dec ++ slice m (zlen A) (s - zlen A)) ++ w) fuel E7) as (c2 & p & d' & E & HP & ED).
    { rewrite L7. change (zlen (@nil Z)) with 0. unfold s in *; lia. }
    { lia. }
    rewrite L7 in E. change (zlen (@nil Z)) with 0 in E. rewrite Z.add_0_r in E.
    exists c2, p, d'. split; [|split; [exact HP|]].
    - replace (fin + 2) with (s + 2 + zlen charset + 3 + zlen text + 2) by (unfold fin; lia). exact E.
    - rewrite ED. assert (slice m (zlen A) (s - zlen A) = B) as -> by (rewrite Em; apply slice_at; unfold s; lia). rewrite <- !app_assoc. reflexivity. }
  induction 1 as [|ch r d Hnw Hnf H IH|charset k text x r d Hcs Hcn Henc HU H IH|charset k text x r d Hcs Hcn Henc HU H IH].
  - intros A B X c dec fuel Em He Hf. change (zlen (@nil Z)) with 0 in He. pose proof (zlen_nonneg A). pose proof (zlen_nonneg B).
    assert (header_loop iconv fuel c m e (zlen A + zlen B) (zlen A) dec = Ret (c, zlen A, dec)) as E by (destruct fuel; cbn [header_loop]; (destruct (Z.ltb_spec (zlen A + zlen B) e); [lia|reflexivity])).
    do 3 eexists. split; [exact E|]. split; [lia|]. rewrite app_nil_r. destruct (Z.ltb_spec (zlen A) e).
    + f_equal. rewrite Em. apply slice_at; lia.
    + assert (B = []) as -> by (apply zlen_0_nil; lia). rewrite app_nil_r. reflexivity.
  - intros A B X c dec fuel Em He Hf. destruct fuel as [|fuel]; [cbn in Hf; lia|].
    pose proof (zlen_nonneg A). pose proof (zlen_nonneg B). pose proof (zlen_nonneg r). rewrite zlen_cons in He.
    assert (m = (A ++ B) ++ ch :: (r ++ X)) as E0 by (rewrite Em, <- app_assoc; reflexivity).
    cbn [header_loop]. destruct (Z.ltb_spec (zlen A + zlen B) e); [|lia].
    rewrite (rdc_at _ _ _ _ (zlen A + zlen B) E0) by (rewrite zlen_app; reflexivity). cbn [bind].
    assert (zlen m = e + zlen X) as Hm by (rewrite Em, !zlen_app, zlen_cons; lia). pose proof (zlen_nonneg X).
    assert ((if (8 <? e - (zlen A + zlen B)) && (ch =? 61) then let* c1 := rdc m (zlen A + zlen B + 1) in Ret (c1 =? 63) else Ret false) = Ret false) as ES.
    { destruct (Z.ltb_spec 8 (e - (zlen A + zlen B))); cbn [andb]; [|reflexivity]. destruct (Z.eqb_spec ch 61) as [->|]; [|reflexivity].
      destruct r as [|c1 r]; [change (zlen (@nil Z)) with 0 in *; lia|]. assert (m = (A ++ B ++ [61]) ++ c1 :: (r ++ X)) as E1 by (rewrite E0, <- !app_assoc; reflexivity).
      rewrite (rdc_at _ _ _ _ _ E1) by (rewrite !zlen_app; change (zlen [61]) with 1; lia). cbn [bind]. destruct (Z.eqb_spec c1 63) as [->|]; [|reflexivity].
      exfalso. apply Hnw. exists r. reflexivity. }
    rewrite ES. cbn [bind].
    assert ((if (3 <? e - (zlen A + zlen B)) && (ch =? 13) then let* c1 := rdc m (zlen A + zlen B + 1) in if c1 =? 10 then let* c2 := rdc m (zlen A + zlen B + 2) in Ret ((c2 =? 9) || (c2 =? 32)) else Ret false else Ret false) = Ret false) as EF.
    { destruct (Z.ltb_spec 3 (e - (zlen A + zlen B))); cbn [andb]; [|reflexivity]. destruct (Z.eqb_spec ch 13) as [->|]; [|reflexivity].
      destruct r as [|c1 [|c2 r]]; [change (zlen (@nil Z)) with 0 in *; lia|change (zlen [c1]) with 1 in *; lia|].
      assert (m = (A ++ B ++ [13]) ++ c1 :: (c2 :: r ++ X)) as E1 by (rewrite E0, <- !app_assoc; reflexivity).
      assert (m = (A ++ B ++ [13;c1]) ++ c2 :: (r ++ X)) as E2 by (rewrite E0, <- !app_assoc; reflexivity).
      rewrite (rdc_at _ _ _ _ _ E1) by (rewrite !zlen_app; change (zlen [13]) with 1; lia). cbn [bind].
      destruct (Z.eqb_spec c1 10) as [->|]; [|reflexivity].
      rewrite (rdc_at _ _ _ _ _ E2) by (rewrite !zlen_app; change (zlen [13;10]) with 2; lia). cbn [bind]. f_equal.
      destruct (Z.eqb_spec c2 9) as [->|]; [exfalso; apply Hnf; exists 9, r; auto|]. destruct (Z.eqb_spec c2 32) as [->|]; [exfalso; apply Hnf; exists 32, r; auto|]. reflexivity. }
    rewrite EF. cbn [bind].
    destruct (IH A (B ++ [ch]) X c dec fuel) as (c' & p & d' & E & HP & ED); [rewrite Em, <- app_assoc; reflexivity|rewrite zlen_app; change (zlen [ch]) with 1; lia|cbn in Hf; lia|].
    rewrite zlen_app in E. change (zlen [ch]) with 1 in E. rewrite Z.add_assoc in E.
    exists c', p, d'. split; [exact E|]. split; [exact HP|]. rewrite ED, <- app_assoc. reflexivity.
  - intros A B X c dec fuel. eapply (Word charset k text x r d x); try assumption. left; auto.
  - intros A B X c dec fuel. eapply (Word charset k text x r d (conv charset x)); try assumption. right; auto.
Qed.
End Header.

(** the header decoder ends and stays inside, for every value that is followed by one byte of memory *)
Section Total.
Context {C : Type}.
Variable iconv : C -> list Z -> list Z -> C * option (list Z).
Lemma strncase_total m e : 0 <= e <= zlen m -> forall s o q, 0 <= o <= q -> q < e -> rdc m q = Ret 63 -> ~ In 63 s -> map lower s = s -> exists u, strncase_eq s m o = Ret u.
Proof.
  intros He. induction s as [|c s IH]; intros o q Ho Hq Eq Hn Hs; cbn [strncase_eq]; [eexists; reflexivity|]. injection Hs as Hc Hs.
  destruct (Z.eq_dec o q) as [->|].
  - rewrite Eq. cbn [bind]. change (tolower c) with (lower c). rewrite Hc. change (tolower 63) with 63. destruct (Z.eqb_spec c 63) as [->|]; [exfalso; apply Hn; left; reflexivity|eexists; reflexivity].
  - destruct (rdc_in m o ltac:(lia)) as (d & Ed). rewrite Ed. cbn [bind]. destruct (_ =? _); [|eexists; reflexivity]. apply (IH (o + 1) q); try assumption; try lia. intros HI. apply Hn. right. exact HI.
Qed.
Lemma word_total m e c s q1 q2 fin x : 0 <= e <= zlen m -> 0 <= s <= q1 -> q1 < e -> rdc m q1 = Ret 63 -> exists r, word iconv c m s (q1 + 1) q2 fin x = Ret r.
Proof.
  intros He Hs Hq Eq. unfold word. destruct (strncase_total m e He utf8_name s q1 Hs Hq Eq) as (u & Eu); [intros [H|[H|[H|[H|[H|[]]]]]]; discriminate|reflexivity|].
  rewrite Eu. cbn [bind]. eexists; reflexivity.
Qed.
Lemma header_total m e : 0 <= e < zlen m -> Forall byte m -> forall fuel c s p dec, 0 <= p <= s -> (Z.to_nat (e - s) <= fuel)%nat -> exists c' p' d, header_loop iconv fuel c m e s p dec = Ret (c', p', d) /\ 0 <= p'.
Proof.
  intros He HB. induction fuel as [|fuel IH]; intros c s p dec Hp Hf; cbn [header_loop]; destruct (Z.ltb_spec s e); try lia; try (do 3 eexists; split; [reflexivity|lia]).
  destruct (rdc_in m s ltac:(lia)) as (c0 & E0). rewrite E0. cbn [bind].
  match goal with |- context [bind ?X _] => assert (exists st, X = Ret st) as (st & Est) end.
  { destruct ((8 <? e - s) && (c0 =? 61)) eqn:E; [|eexists; reflexivity]. destruct (rdc_in m (s + 1) ltac:(lia)) as (c1 & E1). rewrite E1. eexists; reflexivity. }
  rewrite Est. cbn [bind]. destruct st.
  - assert (8 < e - s) as H8. { destruct (Z.ltb_spec 8 (e - s)); [assumption|]. cbn [andb] in Est. discriminate. }
    destruct (find_q_total m e ltac:(lia) (Z.to_nat e) (s + 2) ltac:(lia) ltac:(lia)) as (q1 & F1 & G1 & K1). rewrite F1. cbn [bind].
    destruct (find_q_total m e ltac:(lia) (Z.to_nat e) (q1 + 1) ltac:(lia) ltac:(lia)) as (q2 & F2 & G2 & K2). rewrite F2. cbn [bind].
    destruct (find_q_total m e ltac:(lia) (Z.to_nat e) (q2 + 1) ltac:(lia) ltac:(lia)) as (fin & F3 & G3 & K3). rewrite F3. cbn [bind].
    match goal with |- context [bind ?X _] => assert (exists st, X = Ret st) as (bad & Ebad) end.
    { destruct (Z.ltb_spec (e - fin) 1); [eexists; reflexivity|]. destruct (rdc_in m (fin + 1) ltac:(lia)) as (c1 & E1). rewrite E1. eexists; reflexivity. }
    rewrite Ebad. cbn [bind]. destruct bad; [apply IH; lia|].
    assert (fin < e) as Hfin. { destruct (Z.ltb_spec (e - fin) 1); [discriminate|lia]. }
    cbv zeta. destruct (rdc_in m (q1 + 1) ltac:(lia)) as (k & Ek). rewrite Ek. cbn [bind].
    set (text := slice m (q2 + 1) (fin - (q2 + 1))). assert (zlen text = fin - (q2 + 1)) as Hlt by (unfold text; apply zlen_slice; lia).
    assert (Forall byte text) as HBt.
    { rewrite Forall_forall in *. intros x Hx. apply HB. unfold text, slice in Hx. apply In_nth_error in Hx. destruct Hx as (i & Hi).
      rewrite nth_error_firstn' in Hi. destruct (_ <? _)%nat in Hi; [|discriminate]. rewrite nth_error_skipn' in Hi. eapply nth_error_In; exact Hi. }
    match goal with |- context [bind ?X _] => assert (exists st, X = Ret st) as ((c' & w) & Ew) end.
    { destruct ((k =? 98) || (k =? 66)).
      - assert (exists raw, (match text with [] => Ret [] | _ => b64_decode text end) = Ret raw) as (raw & Eraw).
        { destruct text as [|t0 tx] eqn:Etx; [eexists; reflexivity|]. destruct (C13_decode_total (t0 :: tx) HBt ltac:(discriminate)) as (r & Er & _). exists r. exact Er. }
        rewrite Eraw. cbn [bind]. apply (word_total m e); [lia|lia|lia|apply K1; lia].
      - destruct ((k =? 113) || (k =? 81)); [|eexists; reflexivity]. rewrite <- Hlt, qp_ok. cbn [bind]. apply (word_total m e); [lia|lia|lia|apply K1; lia]. }
    rewrite Ew. cbn [bind]. apply IH; lia.
  - match goal with |- context [bind ?X _] => assert (exists st, X = Ret st) as (fd & Efd) end.
    { destruct (Z.ltb_spec 3 (e - s)); cbn [andb]; [|eexists; reflexivity]. destruct (c0 =? 13); [|eexists; reflexivity].
      destruct (rdc_in m (s + 1) ltac:(lia)) as (c1 & E1). rewrite E1. cbn [bind]. destruct (c1 =? 10); [|eexists; reflexivity].
      destruct (rdc_in m (s + 2) ltac:(lia)) as (c2 & E2). rewrite E2. eexists; reflexivity. }
    rewrite Efd. cbn [bind]. destruct fd; apply IH; lia.
Qed.
End Total.
