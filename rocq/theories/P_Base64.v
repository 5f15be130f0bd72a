From Verif Require Import Base StreamSpec P_Stream M_Buffered BufferedSpec M_Base64 B64Spec.

Lemma byte_check (P : Z -> bool) : forallb P (map Z.of_nat (seq 0 256)) = true -> forall c, byte c -> P c = true.
Proof.
  intros H c Hc. rewrite forallb_forall in H. apply H. apply in_map_iff. exists (Z.to_nat c).
  unfold byte in Hc. split; [lia|]. apply in_seq. lia.
Qed.
Definition is_some {A} (o : option A) : bool := match o with Some _ => true | None => false end.
Lemma tables_ok c : byte c -> inalphabet c = Ret (is_some (b64val c)) /\
  (forall v, b64val c = Some v -> decoder c = Ret v /\ 0 <= v < 64 /\ b64char v = c).
Proof.
  intros Hc.
  set (P := fun c => (match inalphabet c with Ret b => Bool.eqb b (is_some (b64val c)) | _ => false end) &&
     match b64val c with Some v => (match decoder c with Ret w => w =? v | _ => false end) && (0 <=? v) && (v <? 64) && (b64char v =? c) | None => true end).
  assert (P c = true) as H by (apply (byte_check P); [vm_compute; reflexivity|exact Hc]).
  unfold P in H. apply andb_true_iff in H as [H1 H2]. split.
  - destruct (inalphabet c) as [b| | |]; try discriminate. apply Bool.eqb_prop in H1. subst. reflexivity.
  - intros v Ev. rewrite Ev in H2. apply andb_true_iff in H2 as [H2 H3]. apply andb_true_iff in H2 as [H2 H4]. apply andb_true_iff in H2 as [H2 H5].
    destruct (decoder c) as [w| | |]; try discriminate. apply Z.eqb_eq in H2. subst w.
    apply Z.eqb_eq in H3. apply Z.ltb_lt in H4. apply Z.leb_le in H5. repeat split; try lia.
Qed.
Lemma b64val_char v : 0 <= v < 64 -> b64val (b64char v) = Some v /\ b64char v <> pad /\ byte (b64char v).
Proof.
  intros Hv. unfold b64val, b64char, pad, byte. zdest; cbn [andb]; try lia; (split; [f_equal; lia|lia]).
Qed.
Lemma pad_val : b64val pad = None. Proof. reflexivity. Qed.

(** the specification as a machine with pending sextets *)
Definition flush (acc : list Z) : list Z :=
  match acc with
  | [a; b; c] => [a * 4 + b / 16; b mod 16 * 16 + c / 4]
  | [a; b] => [a * 4 + b / 16]
  | _ => []
  end.
Definition three (a b c d : Z) : list Z := [a * 4 + b / 16; b mod 16 * 16 + c / 4; c mod 4 * 64 + d].
Fixpoint dec (acc : list Z) (l : list Z) : list Z :=
  match l with
  | [] => []
  | c :: r =>
      if c =? pad then flush acc
      else match b64val c with
           | None => dec acc r
           | Some v => match acc with
                       | [x; y; z] => three x y z v ++ dec [] r
                       | _ => dec (acc ++ [v]) r
                       end
           end
  end.
Lemma groups_app x y z w l cl : groups cl (x :: y :: z :: w :: l) = three x y z w ++ groups cl l.
Proof. reflexivity. Qed.
Lemma dec_spec l : forall acc, (length acc <= 3)%nat -> dec acc l = groups (has_pad l) (acc ++ sextets (before_pad l)).
Proof.
  induction l as [|c r IH]; intros acc Ha.
  - cbn. rewrite app_nil_r. destruct acc as [|a [|b [|d [|? ?]]]]; cbn in *; try lia; reflexivity.
  - cbn [dec has_pad existsb before_pad]. rewrite Z.eqb_sym. destruct (Z.eqb_spec c pad) as [->|N].
    + change (pad =? pad) with true; cbn [orb]. cbn [sextets]. rewrite app_nil_r. destruct acc as [|a [|b [|d [|? ?]]]]; cbn in *; try lia; reflexivity.
    + destruct (Z.eqb_spec pad c); [congruence|]. cbn [orb].
      cbn [sextets]. fold (has_pad r). destruct (b64val c) as [v|].
      * destruct acc as [|a [|b [|d [|? ?]]]]; cbn [length] in Ha; try lia; cbn [app];
          try (rewrite IH by (cbn; lia); cbn [app]; reflexivity).
      * apply IH. exact Ha.
Qed.
Lemma b64decoded_dec l : b64decoded l = dec [] l.
Proof. rewrite dec_spec by (cbn; lia). reflexivity. Qed.
Lemma skipn_cons_zget {A} (l : list A) (i : nat) x r : skipn i l = x :: r -> skipn (S i) l = r.
Proof. intros H. replace (S i) with (1 + i)%nat by lia. rewrite <- skipn_skipn', H. reflexivity. Qed.

(** pending bits *)
Definition accv (acc : list Z) : Z := fold_left (fun v x => v * 64 + x) acc 0.
Definition six (l : list Z) : Prop := Forall (fun v => 0 <= v < 64) l.
Lemma three_bits a b c d : 0 <= a < 64 -> 0 <= b < 64 -> 0 <= c < 64 -> 0 <= d < 64 ->
  let w := ((a * 64 + b) * 64 + c) * 64 + d in
  [Z.shiftr w 16 mod 256; Z.land (Z.shiftr w 8) 255; Z.land w 255] = three a b c d.
Proof.
  intros Ha Hb Hc Hd w. unfold three. change 255 with (Z.ones 8). rewrite !Z.land_ones by lia. rewrite !Z.shiftr_div_pow2 by lia.
  change (2 ^ 16) with 65536. change (2 ^ 8) with 256. unfold w.
  pose proof (Z.div_mod b 16 ltac:(lia)). pose proof (Z.mod_pos_bound b 16 ltac:(lia)).
  pose proof (Z.div_mod c 4 ltac:(lia)). pose proof (Z.mod_pos_bound c 4 ltac:(lia)).
  set (b1 := b / 16) in *. set (b0 := b mod 16) in *. set (c1 := c / 4) in *. set (c0 := c mod 4) in *.
  assert (w = (a * 4 + b1) * 65536 + (b0 * 16 + c1) * 256 + (c0 * 64 + d)) as Ew by (unfold w; lia).
  fold w. rewrite Ew. f_equal; [|f_equal; [|f_equal]].
  - replace (((a * 4 + b1) * 65536 + (b0 * 16 + c1) * 256 + (c0 * 64 + d)) / 65536) with (a * 4 + b1).
    + apply Z.mod_small. lia.
    + apply Z.div_unique with ((b0 * 16 + c1) * 256 + (c0 * 64 + d)); lia.
  - replace (((a * 4 + b1) * 65536 + (b0 * 16 + c1) * 256 + (c0 * 64 + d)) / 256) with ((a * 4 + b1) * 256 + (b0 * 16 + c1)).
    + rewrite Z.add_comm, Z_mod_plus_full. apply Z.mod_small; lia.
    + apply Z.div_unique with (c0 * 64 + d); lia.
  - symmetry. apply Z.mod_unique with ((a * 4 + b1) * 256 + (b0 * 16 + c1)); lia.
Qed.
Definition pend (todo bits : Z) : list Z :=
  if todo =? 3 then [Z.shiftr bits 16 mod 256; Z.land (Z.shiftr bits 8) 255; Z.land bits 255]
  else if todo =? 2 then [Z.land (Z.shiftr bits 8) 255; Z.land bits 255]
  else if todo =? 1 then [Z.land bits 255] else [].
Lemma flush2 a b : 0 <= a < 64 -> 0 <= b < 64 -> pend 1 (Z.shiftr (64 * accv [a; b]) 10) = flush [a; b].
Proof.
  intros Ha Hb. unfold flush, accv; cbn [fold_left].
  match goal with |- pend 1 ?x = _ => change (pend 1 x) with [Z.land x 255] end. change 255 with (Z.ones 8). rewrite !Z.land_ones by lia.
  rewrite Z.shiftr_div_pow2 by lia. change (2 ^ 10) with 1024. change (2 ^ 8) with 256. f_equal.
  pose proof (Z.div_mod b 16 ltac:(lia)). pose proof (Z.mod_pos_bound b 16 ltac:(lia)).
  replace (64 * ((0 * 64 + a) * 64 + b) / 1024) with (a * 4 + b / 16).
  - apply Z.mod_small. lia.
  - apply Z.div_unique with (64 * (b mod 16)); lia.
Qed.
Lemma flush3 a b c : 0 <= a < 64 -> 0 <= b < 64 -> 0 <= c < 64 -> pend 2 (Z.shiftr (64 * accv [a; b; c]) 8) = flush [a; b; c].
Proof.
  intros Ha Hb Hc. unfold flush, accv; cbn [fold_left].
  match goal with |- pend 2 ?x = _ => change (pend 2 x) with [Z.land (Z.shiftr x 8) 255; Z.land x 255] end. change 255 with (Z.ones 8). rewrite !Z.land_ones by lia.
  rewrite !Z.shiftr_div_pow2 by lia. change (2 ^ 8) with 256.
  pose proof (Z.div_mod b 16 ltac:(lia)). pose proof (Z.mod_pos_bound b 16 ltac:(lia)).
  pose proof (Z.div_mod c 4 ltac:(lia)). pose proof (Z.mod_pos_bound c 4 ltac:(lia)).
  set (b1 := b / 16) in *. set (b0 := b mod 16) in *. set (c1 := c / 4) in *. set (c0 := c mod 4) in *.
  replace (64 * (((0 * 64 + a) * 64 + b) * 64 + c) / 256) with ((a * 4 + b1) * 256 + (b0 * 16 + c1)).
  2:{ apply Z.div_unique with (64 * c0); lia. }
  f_equal; [|f_equal].
  - replace (((a * 4 + b1) * 256 + (b0 * 16 + c1)) / 256) with (a * 4 + b1); [apply Z.mod_small; lia|].
    apply Z.div_unique with (b0 * 16 + c1); lia.
  - rewrite Z.add_comm, Z_mod_plus_full. apply Z.mod_small; lia.
Qed.

Section Q.
Context {P : Type}.
Variables (par : ops P Z) (E : list Z) (fails : Prop) (R : P -> view -> Prop).
(* all that is used of the parent: read(1, 0) *)
Hypothesis HV : forall p v, R p v -> view_ok E v.
Hypothesis HR : forall p v, R p v -> exists p' n d, o_read par p 1 0 = Ret (p', n, d) /\
    ((good_obs E fails v (Read 1 0) (observe par p' n d) /\ R p' (next_view v (Read 1 0) (observe par p' n d)))
     \/ (o_status par p' = Error /\ fails /\ n = -2)).
Hypothesis HB : Forall byte E.
Variable fuel : nat.

Definition rest (win : list Z) (v : view) : list Z := win ++ skipn (Z.to_nat (v_pos v)) E.
Definition alive (q : b64 P) (tl : list Z) : Prop :=
  match q_in q with
  | inr p => tl = [] /\ exists v, R p v
  | inl p => exists v acc, R p v /\ Forall byte (q_win q) /\ six acc /\ (length acc <= 3)%nat /\
      tl = dec acc (rest (q_win q) v) /\ (length (rest (q_win q) v) < fuel)%nat /\
      ((q_todo q = 0 /\ q_bits q = 64 * accv acc /\ q_cc q = zlen acc) \/ (1 <= q_todo q <= 3 /\ acc = []))
  end.

Lemma accv_bound acc : six acc -> (length acc <= 3)%nat -> 0 <= accv acc < 262144.
Proof.
  intros H L. destruct acc as [|a [|b [|c [|? ?]]]]; cbn [length] in L; try lia; unfold accv; cbn [fold_left];
    repeat match goal with H : six (_ :: _) |- _ => inversion H; clear H; subst | H : Forall _ (_ :: _) |- _ => inversion H; clear H; subst end; lia.
Qed.
Lemma accv_app acc v : accv (acc ++ [v]) = accv acc * 64 + v.
Proof. unfold accv. rewrite fold_left_app. reflexivity. Qed.

Definition loop_res (acc rs : list Z) (space : Z) (d : list Z) (res : out (b64 P * list Z * Z * bool)) : Prop :=
  exists q' d' nw' err ext, res = Ret (q', d', nw', err) /\ nw' = zlen d' /\ zlen d' <= space /\ d' = d ++ ext /\
    ((err = false /\ 0 <= q_todo q' <= 3 /\ (exists tl, dec acc rs = ext ++ pend (q_todo q') (q_bits q') ++ tl /\ alive q' tl) /\
        (q_null q' = true \/ (1 <= q_todo q' /\ 0 < nw')))
     \/ (err = true /\ fails /\ q_null q' = true /\ q_todo q' = 0 /\ exists tl, dec acc rs = ext ++ tl)).

Lemma loop_shift acc acc2 rs rs2 space d ext1 res :
  loop_res acc2 rs2 space (d ++ ext1) res -> dec acc rs = ext1 ++ dec acc2 rs2 -> loop_res acc rs space d res.
Proof.
  intros (q' & d' & nw' & err & ext & E1 & E2 & E3 & E4 & E5) HD.
  exists q', d', nw', err, (ext1 ++ ext). split; [exact E1|]. split; [exact E2|]. split; [exact E3|].
  split; [rewrite E4, app_assoc; reflexivity|]. destruct E5 as [(A1 & A2 & (tl & A3 & A4) & A5)|(A1 & A2 & A3 & A4 & (tl & A5))].
  - left. split; [exact A1|]. split; [exact A2|]. split; [|exact A5]. exists tl. split; [|exact A4]. rewrite HD, A3, !app_assoc. reflexivity.
  - right. split; [exact A1|]. split; [exact A2|]. split; [exact A3|]. split; [exact A4|]. exists tl. rewrite HD, A5, app_assoc. reflexivity.
Qed.

Lemma one_char f : 
  (forall p v win acc space d nw, R p v -> Forall byte win -> six acc -> (length acc <= 3)%nat ->
    (length (rest win v) < f)%nat -> (f <= fuel)%nat -> 1 <= space -> nw = zlen d -> zlen d <= space ->
    loop_res acc (rest win v) space d (b64_loop par f (mkQ (inl p) win (64 * accv acc) 0 (zlen acc)) space d nw)) ->
  forall p v c win acc space d nw, R p v -> byte c -> Forall byte win -> six acc -> (length acc <= 3)%nat ->
    (length (rest win v) < f)%nat -> (f <= fuel)%nat -> 1 <= space -> nw = zlen d -> zlen d <= space ->
    loop_res acc (c :: rest win v) space d (b64_loop par (S f) (mkQ (inl p) (c :: win) (64 * accv acc) 0 (zlen acc)) space d nw).
Proof.
  intros IH p v c win acc space d nw Hp Hc Hw Ha Hl Hf Hff Hs Hnw Hd.
  pose proof (accv_bound acc Ha Hl) as Hav.
  cbn [b64_loop moreData q_win bind negb q_bits q_cc q_todo q_in].
  assert (zlen acc = 0 \/ zlen acc = 1 \/ zlen acc = 2 \/ zlen acc = 3) as Hcc by (unfold zlen; lia).
  cbn [dec]. change pad with 61.
  destruct (Z.eqb_spec c 61) as [->|Nc].
  - assert (dec acc (61 :: rest win v) = flush acc) as HD by reflexivity.
    destruct acc as [|x [|y [|z [|? ?]]]]; cbn [length] in Hl; try lia.
    + unfold zlen; cbn. exists (mkQ (inr p) [] 0 0 0), d, nw, false, []. rewrite app_nil_r. repeat split; try assumption.
      left. split; [reflexivity|]. split; [cbn; lia|]. split; [|left; reflexivity]. exists []. rewrite HD. split; [reflexivity|split; [reflexivity|exists v; exact Hp]].
    + change (zlen [x]) with 1. cbn [Z.eqb Pos.eqb]. exists (mkQ (inr p) [] (64 * accv [x]) 0 1), d, nw, false, []. rewrite app_nil_r. repeat split; try assumption.
      left. split; [reflexivity|]. split; [cbn; lia|]. split; [|left; reflexivity]. exists []. rewrite HD. split; [reflexivity|split; [reflexivity|exists v; exact Hp]].
    + inversion Ha as [|? ? A1 A2]; inversion A2 as [|? ? A3 A4]; subst. 
      change (zlen [x; y]) with 2. cbn [Z.eqb Pos.eqb].
      exists (mkQ (inr p) [] (Z.shiftr (64 * accv [x; y]) 10) 1 2), d, (zlen d), false, []. rewrite app_nil_r. repeat split; try assumption.
      left. split; [reflexivity|]. split; [cbn; lia|]. split; [|left; reflexivity]. exists []. rewrite HD. cbn [q_todo q_bits]. rewrite flush2 by assumption. split; [reflexivity|split; [reflexivity|exists v; exact Hp]].
    + inversion Ha as [|? ? A1 A2]; inversion A2 as [|? ? A3 A4]; inversion A4 as [|? ? A5 A6]; subst. 
      change (zlen [x; y; z]) with 3. cbn [Z.eqb Pos.eqb].
      exists (mkQ (inr p) [] (Z.shiftr (64 * accv [x; y; z]) 8) 2 3), d, (zlen d), false, []. rewrite app_nil_r. repeat split; try assumption.
      left. split; [reflexivity|]. split; [cbn; lia|]. split; [|left; reflexivity]. exists []. rewrite HD. cbn [q_todo q_bits]. rewrite flush3 by assumption. split; [reflexivity|split; [reflexivity|exists v; exact Hp]].
  - destruct (tables_ok c Hc) as (T1 & T2). rewrite T1; cbn [bind].
    assert (forall acc', dec acc' (c :: rest win v) = match b64val c with None => dec acc' (rest win v)
             | Some v0 => match acc' with [x; y; z] => three x y z v0 ++ dec [] (rest win v) | _ => dec (acc' ++ [v0]) (rest win v) end end) as HD.
    { intros acc'. cbn [dec]. change pad with 61. destruct (Z.eqb_spec c 61); [contradiction|reflexivity]. }
    destruct (b64val c) as [w|]; cbn [is_some negb].
    2:{ apply (loop_shift acc acc (c :: rest win v) (rest win v) space d []).
        - rewrite app_nil_r. apply IH; assumption.
        - rewrite HD. reflexivity. }
    destruct (T2 w eq_refl) as (T3 & T4 & _). rewrite T3; cbn [bind].
    rewrite chk32_ok by (unfold INT32_MIN, INT32_MAX; lia). cbn [bind].
    destruct (Z.eqb_spec (zlen acc + 1) 4) as [E4|E4].
    + destruct acc as [|x [|y [|z [|? ?]]]]; cbn [length] in Hl; try lia; try (unfold zlen in E4; cbn in E4; lia).
      inversion Ha as [|? ? A1 A2]; inversion A2 as [|? ? A3 A4]; inversion A4 as [|? ? A5 A6]; subst. 
      set (bits := 64 * accv [x; y; z] + w).
      assert ([Z.shiftr bits 16 mod 256; Z.land (Z.shiftr bits 8) 255; Z.land bits 255] = three x y z w) as H3.
      { rewrite <- three_bits by assumption. cbv zeta. assert (bits = ((x * 64 + y) * 64 + z) * 64 + w) as -> by (unfold bits, accv; cbn [fold_left]; lia). reflexivity. }
      assert (alive (mkQ (inl p) win bits 3 4) (dec [] (rest win v)) /\ alive (mkQ (inl p) win bits 2 4) (dec [] (rest win v)) /\ alive (mkQ (inl p) win bits 1 4) (dec [] (rest win v))) as (AL3 & AL2 & AL1).
      { unfold alive; cbn [q_in q_win q_todo]. split; [|split]; exists v, []; (split; [assumption|]; split; [assumption|]; split; [constructor|]; split; [cbn; lia|]; split; [reflexivity|]; split; [lia|]; right; split; [lia|reflexivity]). }
      rewrite E4.
      assert (forall xx (l : list Z), zlen (l ++ [xx]) = zlen l + 1) as Hz1 by (intros; rewrite zlen_app; reflexivity).
      destruct (Z.leb_spec space (zlen d)).
      { exists (mkQ (inl p) win bits 3 4), d, (zlen d), false, []. rewrite app_nil_r. split; [reflexivity|]. split; [reflexivity|]. split; [lia|]. split; [reflexivity|].
        left. split; [reflexivity|]. split; [cbn; lia|]. split.
        - exists (dec [] (rest win v)). split; [|exact AL3]. rewrite HD. cbn [q_todo q_bits]. unfold pend; cbn [Z.eqb Pos.eqb]. rewrite H3. reflexivity.
        - right. cbn; lia. }
      rewrite Hz1.
      destruct (Z.leb_spec space (zlen d + 1)).
      { eexists (mkQ (inl p) win bits 2 4), _, (zlen d + 1), false, [Z.shiftr bits 16 mod 256]. split; [reflexivity|]. split; [rewrite Hz1; reflexivity|]. split; [rewrite Hz1; lia|]. split; [reflexivity|].
        left. split; [reflexivity|]. split; [cbn; lia|]. split.
        - exists (dec [] (rest win v)). split; [|exact AL2]. rewrite HD. cbn [q_todo q_bits]. unfold pend; cbn [Z.eqb Pos.eqb]. rewrite <- H3. reflexivity.
        - right. cbn. pose proof (zlen_nonneg d); lia. }
      rewrite Hz1, Hz1.
      destruct (Z.leb_spec space (zlen d + 1 + 1)).
      { eexists (mkQ (inl p) win bits 1 4), _, (zlen d + 2), false, [Z.shiftr bits 16 mod 256; Z.land (Z.shiftr bits 8) 255]. split; [reflexivity|]. split; [rewrite !Hz1; lia|]. split; [rewrite !Hz1; lia|]. split; [rewrite <- app_assoc; reflexivity|].
        left. split; [reflexivity|]. split; [cbn; lia|]. split.
        - exists (dec [] (rest win v)). split; [|exact AL1]. rewrite HD. cbn [q_todo q_bits]. unfold pend; cbn [Z.eqb Pos.eqb]. rewrite <- H3. reflexivity.
        - right. cbn. pose proof (zlen_nonneg d); lia. }
      rewrite <- !app_assoc. cbn [app].
      apply (loop_shift [x; y; z] [] (c :: rest win v) (rest win v) space d [Z.shiftr bits 16 mod 256; Z.land (Z.shiftr bits 8) 255; Z.land bits 255]).
      * apply (IH p v win []); try assumption; try constructor; try (cbn; lia).
        all: rewrite zlen_app; change (zlen [Z.shiftr bits 16 mod 256; Z.land (Z.shiftr bits 8) 255; Z.land bits 255]) with 3; lia.
      * rewrite HD, H3. reflexivity.
    + assert (length acc <= 2)%nat as Hl2 by (unfold zlen in E4; lia).
      assert (Z.shiftl (64 * accv acc + w) 6 = 64 * accv (acc ++ [w])) as Eb.
      { rewrite Z.shiftl_mul_pow2 by lia. rewrite accv_app. change (2 ^ 6) with 64. lia. }
      assert (six (acc ++ [w])) as Ha' by (apply Forall_app; split; [exact Ha|constructor; [exact T4|constructor]]).
      assert (length (acc ++ [w]) <= 3)%nat as Hl' by (rewrite app_length; cbn; lia).
      rewrite Eb, chk32_ok by (pose proof (accv_bound _ Ha' Hl'); unfold INT32_MIN, INT32_MAX; lia). cbn [bind].
      replace (zlen acc + 1) with (zlen (acc ++ [w])) by (rewrite zlen_app; reflexivity).
      apply (loop_shift acc (acc ++ [w]) (c :: rest win v) (rest win v) space d []).
      * rewrite app_nil_r. apply IH; assumption.
      * rewrite HD. destruct acc as [|x [|y [|z [|? ?]]]]; cbn [length] in Hl2; try lia; reflexivity.
Qed.

Lemma b64_loop_ok f : forall p v win acc space d nw, R p v -> Forall byte win -> six acc -> (length acc <= 3)%nat ->
    (length (rest win v) < f)%nat -> (f <= fuel)%nat -> 1 <= space -> nw = zlen d -> zlen d <= space ->
    loop_res acc (rest win v) space d (b64_loop par f (mkQ (inl p) win (64 * accv acc) 0 (zlen acc)) space d nw).
Proof.
  induction f as [|f IH]; intros p v win acc space d nw Hp Hw Ha Hl Hf Hff Hs Hnw Hd; [lia|].
  destruct win as [|c win].
  - (* read more *)
    destruct (HR p v Hp) as (p' & n & dd & Er & Hcase).
    cbn [b64_loop moreData q_win q_in]. rewrite Er; cbn [bind].
    pose proof (HV p v Hp) as Hv.
    destruct Hcase as [(G & Hp')|(Hst & Hfl & ->)].
    + destruct G as (_ & _ & _ & _ & G). cbn [ob_ret ob_data observe ob_st] in G. destruct G as [(G1 & G2 & G3 & _)|(G1 & G2 & G3 & _)].
      * destruct (Z.ltb_spec n (-1)); [lia|]. destruct (Z.leb_spec n 0); [lia|]. cbn [bind negb q_win].
        assert (next_view v (Read 1 0) (observe par p' n dd) = mkView (v_pos v + n) (v_pos v) (v_pos v + n)) as Ev.
        { cbn. destruct (Z.ltb_spec 0 n); [reflexivity|lia]. }
        rewrite Ev in Hp'.
        assert (zlen dd = n) as Zd by (rewrite G2; destruct Hv; apply zlen_slice; lia).
        assert (rest [] v = rest dd (mkView (v_pos v + n) (v_pos v) (v_pos v + n))) as Erest.
        { unfold rest; cbn [v_pos app]. rewrite G2. unfold slice.
          replace (Z.to_nat (v_pos v + n)) with (Z.to_nat n + Z.to_nat (v_pos v))%nat by (destruct Hv; lia).
          rewrite <- skipn_skipn'. symmetry. apply firstn_skipn. }
        assert (Forall byte dd) as HBd.
        { rewrite G2. unfold slice. apply Forall_forall. intros x Hx. rewrite Forall_forall in HB. apply HB.
          rewrite <- (firstn_skipn (Z.to_nat (v_pos v)) E). apply in_or_app. right.
          rewrite <- (firstn_skipn (Z.to_nat n) (skipn (Z.to_nat (v_pos v)) E)). apply in_or_app. left. exact Hx. }
        destruct dd as [|c dd]; [change (zlen (@nil Z)) with 0 in Zd; lia|].
        assert (byte c) as HBc by (inversion HBd; assumption). assert (Forall byte dd) as HBd' by (inversion HBd; assumption). subst nw.
        rewrite Erest in Hf |- *.
        change (rest (c :: dd) (mkView (v_pos v + n) (v_pos v) (v_pos v + n))) with (c :: rest dd (mkView (v_pos v + n) (v_pos v) (v_pos v + n))) in Hf |- *.
        cbn [length] in Hf.
        pose proof (one_char f IH p' _ c dd acc space d (zlen d) Hp' HBc HBd' Ha Hl ltac:(lia) ltac:(lia) Hs eq_refl Hd) as H1.
        cbn [b64_loop moreData q_win bind negb q_bits q_cc q_todo q_in] in H1 |- *. exact H1.
      * subst n. cbn [Z.ltb Z.compare Pos.compare Pos.compare_cont Z.leb bind negb].
        assert (rest [] v = []) as Erest.
        { unfold rest. rewrite skipn_all2; [reflexivity|]. unfold zlen in *; lia. }
        rewrite Erest. eexists _, d, nw, false, []. split; [reflexivity|]. split; [exact Hnw|]. split; [exact Hd|]. rewrite app_nil_r. split; [reflexivity|].
        left. split; [reflexivity|]. cbn [q_todo q_in q_bits]. split; [lia|]. split; [|left; reflexivity].
        exists []. split; [reflexivity|split; [reflexivity|eexists; exact Hp']].
    + cbn [Z.ltb Z.compare Pos.compare Pos.compare_cont CompOpp bind negb].
      eexists _, d, nw, true, []. split; [reflexivity|]. split; [exact Hnw|]. split; [exact Hd|]. rewrite app_nil_r. split; [reflexivity|].
      right. cbn [q_todo q_in q_bits]. repeat split; try assumption; try reflexivity. exists (dec acc (rest [] v)). reflexivity.
  - inversion Hw as [|? ? Hc Hw']; subst. cbn [rest app length] in Hf |- *. fold (rest win v) in Hf |- *.
    apply one_char; try assumption; lia.
Qed.

Variable content : list Z.
Definition q_SR (q : b64 P) (c : Z) : Prop :=
  0 <= c <= zlen content /\ 0 <= q_todo q <= 3 /\
  exists tl, skipn (Z.to_nat c) content = pend (q_todo q) (q_bits q) ++ tl /\ alive q tl.

Lemma skipn_app_split (l a b : list Z) c : 0 <= c <= zlen l -> skipn (Z.to_nat c) l = a ++ b ->
  a = slice l c (zlen a) /\ c + zlen a <= zlen l /\ skipn (Z.to_nat (c + zlen a)) l = b.
Proof.
  intros Hc H. pose proof (zlen_nonneg a).
  assert (zlen (a ++ b) = zlen l - c) as L by (rewrite <- H; unfold zlen in *; rewrite skipn_length; lia).
  rewrite zlen_app in L. pose proof (zlen_nonneg b). split; [|split; [lia|]].
  - unfold slice. rewrite H. unfold zlen. rewrite Nat2Z.id, firstn_app, firstn_all, Nat.sub_diag. cbn. rewrite app_nil_r. reflexivity.
  - replace (Z.to_nat (c + zlen a)) with (length a + Z.to_nat c)%nat by (unfold zlen in *; lia).
    rewrite <- skipn_skipn', H, skipn_app, skipn_all, Nat.sub_diag. reflexivity.
Qed.

Definition q_SE (q : b64 P) : Prop := exists v, R (q_par q) v.
Lemma b64_SrcOK : SrcOK (b64_src par fuel) content fails q_SR q_SE.
Proof.
  intros q c space (Hc & Ht & tl & Htl & HA) Hs. unfold b64_src; cbn [fill mu]. unfold b64_fill.
  destruct (Z.eqb_spec (q_todo q) 0) as [T0|T0].
  - cbn [negb]. rewrite T0 in Htl. change (pend 0 (q_bits q)) with (@nil Z) in Htl. cbn [app] in Htl.
    unfold q_null at 1. destruct (q_in q) as [p|p] eqn:Ein; cbn [andb].
    2:{ unfold alive in HA; rewrite Ein in HA. do 4 eexists; split; [reflexivity|]. split; [change (zlen (@nil Z)) with 0; lia|].
        right; right; left. destruct HA as (HA & v2 & Hv2). split; [reflexivity|]. split; [lia|]. split; [|exists v2; unfold q_par; rewrite Ein; exact Hv2].
        assert (length (skipn (Z.to_nat c) content) = 0%nat) as L by (rewrite Htl, HA; reflexivity).
        rewrite skipn_length in L. unfold zlen in *; lia. }
    unfold alive in HA; rewrite Ein in HA. destruct HA as (v & acc & Hp & Hw & Ha & Hl & Etl & Hf & [(_ & Hb & Hcc)|(H & _)]); [|lia].
    assert (q = mkQ (inl p) (q_win q) (64 * accv acc) 0 (zlen acc)) as Eq by (destruct q; cbn in *; congruence).
    destruct (b64_loop_ok fuel p v (q_win q) acc space [] 0 Hp Hw Ha Hl Hf ltac:(lia) ltac:(lia) eq_refl ltac:(change (zlen (@nil Z)) with 0; lia))
      as (q' & d' & nw' & err & ext & E1 & E2 & E3 & E4 & E5).
    rewrite <- Eq in E1. rewrite E1; cbn [bind app] in *. subst d' nw'. rewrite <- Etl in E5. rewrite <- Htl in E5.
    destruct E5 as [(-> & A2 & (tl' & A3 & A4) & A5)|(-> & A2 & A3 & A4 & (tl' & A5))].
    + destruct (skipn_app_split content ext _ c Hc A3) as (S1 & S2 & S3).
      destruct (Z.eqb_spec (zlen ext) 0) as [Z0|Z0].
      * apply zlen_0_nil in Z0. subst ext. destruct A5 as [A5|(_ & A5)]; [|change (zlen (@nil Z)) with 0 in A5; lia].
        rewrite A5; cbn [andb]. change (zlen (@nil Z)) with 0 in *. rewrite Z.add_0_r in S3.
        destruct (Z.eqb_spec (q_todo q') 0) as [T'|T'].
        -- do 4 eexists; split; [reflexivity|]. split; [change (zlen (@nil Z)) with 0; lia|]. right; right; left.
           unfold alive, q_null in A4, A5. destruct (q_in q') as [p2|p2] eqn:Ein2; [discriminate|]. destruct A4 as (A4 & v2 & Hv2).
           split; [reflexivity|]. split; [lia|]. split; [|exists v2; unfold q_par; rewrite Ein2; exact Hv2]. rewrite T' in S3. subst tl'. cbn in S3.
           assert (length (skipn (Z.to_nat c) content) = 0%nat) as L by (rewrite S3; reflexivity).
           rewrite skipn_length in L. unfold zlen in *; lia.
        -- do 4 eexists; split; [reflexivity|]. split; [change (zlen (@nil Z)) with 0; lia|]. right; left.
           split; [reflexivity|]. split; [reflexivity|]. split; [|rewrite A5; unfold q_null; rewrite Ein; lia].
           split; [lia|]. split; [lia|]. exists tl'. split; assumption.
      * cbn [andb]. do 4 eexists; split; [reflexivity|]. split; [lia|]. left. pose proof (zlen_nonneg ext).
        split; [reflexivity|]. split; [lia|]. split; [exact S1|]. split; [lia|]. split.
        -- split; [lia|]. split; [lia|]. exists tl'. split; assumption.
        -- unfold q_null. rewrite Ein. destruct (q_in q'); lia.
    + destruct (skipn_app_split content ext _ c Hc A5) as (S1 & S2 & S3). rewrite A3, A4. cbn [Z.eqb andb].
      rewrite !andb_true_r.
      destruct (Z.eqb_spec (zlen ext) 0) as [Z0|Z0].
      * do 4 eexists; split; [reflexivity|]. split; [lia|]. right; right; right. split; [reflexivity|]. split; [exact A2|]. left; lia.
      * do 4 eexists; split; [reflexivity|]. split; [lia|]. right; right; right. split; [reflexivity|]. split; [exact A2|]. right; left. pose proof (zlen_nonneg ext).
        split; [lia|]. split; [exact S1|]. split; [lia|]. intros sp Hsp. rewrite A3, A4. cbn. do 3 eexists; split; [reflexivity|lia].
  - rewrite andb_false_r. cbn [negb].
    assert (q_todo q = 3 \/ q_todo q = 2 \/ q_todo q = 1) as Hk by lia.
    assert (forall k x, skipn (Z.to_nat c) content = x :: pend k (if k =? 0 then 0 else q_bits q) ++ tl ->
       0 <= k <= 3 -> x :: nil = slice content c 1 /\ c + 1 <= zlen content /\ skipn (Z.to_nat (c + 1)) content = pend k (if k =? 0 then 0 else q_bits q) ++ tl) as Hone.
    { intros k x Hx _. destruct (skipn_app_split content [x] (pend k (if k =? 0 then 0 else q_bits q) ++ tl) c Hc Hx) as (S1 & S2 & S3).
      change (zlen [x]) with 1 in *. repeat split; assumption. }
    destruct Hk as [K|[K|K]]; rewrite K in *; cbn [Z.eqb Pos.eqb].
    + destruct (Hone 2 _ Htl ltac:(lia)) as (S1 & S2 & S3).
      do 4 eexists; split; [reflexivity|]. split; [change (zlen [Z.shiftr (q_bits q) 16 mod 256]) with 1; lia|]. left.
      split; [reflexivity|]. split; [lia|]. split; [exact S1|]. split; [lia|]. split; [|unfold q_null; cbn [q_in]; lia].
      split; [lia|]. split; [cbn; lia|]. exists tl. split; [exact S3|].
      unfold alive in HA |- *. cbn [q_in q_win q_todo q_bits q_cc]. destruct (q_in q); [|exact HA].
      destruct HA as (v & acc & H1 & H2 & H3 & H4 & H5 & H6 & [(H7 & _)|(H7 & H8)]); [lia|].
      exists v, acc. repeat split; try assumption. right. split; [lia|assumption].
    + destruct (Hone 1 _ Htl ltac:(lia)) as (S1 & S2 & S3).
      do 4 eexists; split; [reflexivity|]. split; [change (zlen [Z.land (Z.shiftr (q_bits q) 8) 255]) with 1; lia|]. left.
      split; [reflexivity|]. split; [lia|]. split; [exact S1|]. split; [lia|]. split; [|unfold q_null; cbn [q_in]; lia].
      split; [lia|]. split; [cbn; lia|]. exists tl. split; [exact S3|].
      unfold alive in HA |- *. cbn [q_in q_win q_todo q_bits q_cc]. destruct (q_in q); [|exact HA].
      destruct HA as (v & acc & H1 & H2 & H3 & H4 & H5 & H6 & [(H7 & _)|(H7 & H8)]); [lia|].
      exists v, acc. repeat split; try assumption. right. split; [lia|assumption].
    + destruct (Hone 0 _ Htl ltac:(lia)) as (S1 & S2 & S3).
      do 4 eexists; split; [reflexivity|]. split; [change (zlen [Z.land (q_bits q) 255]) with 1; lia|]. left.
      split; [reflexivity|]. split; [lia|]. split; [exact S1|]. split; [lia|]. split; [|unfold q_null; cbn [q_in]; lia].
      split; [lia|]. split; [cbn; lia|]. exists tl. split; [exact S3|].
      unfold alive in HA |- *. cbn [q_in q_win q_todo q_bits q_cc]. destruct (q_in q); [|exact HA].
      destruct HA as (v & acc & H1 & H2 & H3 & H4 & H5 & H6 & [(H7 & _)|(H7 & H8)]); [lia|]. subst acc.
      exists v, []. repeat split; try assumption. left. repeat split.
Qed.
End Q.
