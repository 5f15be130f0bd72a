From Verif Require Import Base StreamSpec P_Stream M_Sub P_Sub ArchiveSpec P_Archive M_Ar P_Ar M_Cpio CpioSpec.

Lemma readHex_app l1 : forall v l2, readHex v (l1 ++ l2) = (let* v := readHex v l1 in readHex v l2).
Proof.
  induction l1 as [|c l1 IH]; intros v l2; [reflexivity|]. cbn [app readHex]. destruct (chk32 _); cbn [bind]; try reflexivity. apply IH.
Qed.
Lemma hexnum_nonneg l n : hexnum l n -> 0 <= n.
Proof. induction 1 as [|l n c v H IH Hd]; [lia|]. unfold hexdigit in Hd. lia. Qed.
Lemma readHex_num l n : hexnum l n -> n <= INT32_MAX -> readHex 0 l = Ret n.
Proof.
  induction 1 as [|l n c v H IH Hd]; intros Hn; [reflexivity|]. pose proof (hexnum_nonneg _ _ H). unfold INT32_MAX in *.
  rewrite readHex_app. assert (0 <= v < 16) as Hv by (unfold hexdigit in Hd; lia). rewrite IH by lia. cbn [bind readHex].
  rewrite wrap32_id by (unfold INT32_MIN, INT32_MAX; lia).
  assert ((if 70 <? schar c then schar c - 87 else if 57 <? schar c then schar c - 55 else schar c - 48) = v) as ->.
  { unfold schar. unfold hexdigit in Hd. destruct (Z.ltb_spec c 128); [|lia]. destruct (Z.ltb_spec 70 c), (Z.ltb_spec 57 c); lia. }
  rewrite chk32_ok by (unfold INT32_MIN, INT32_MAX; lia). reflexivity.
Qed.
Lemma list_eqb_true a b : list_eqb a b = true <-> a = b.
Proof. unfold list_eqb. destruct (list_eq_dec Z.eq_dec a b); split; intros; congruence. Qed.
Lemma list_eqb_refl a : list_eqb a a = true. Proof. apply list_eqb_true; reflexivity. Qed.
Lemma list_eqb_false a b : a <> b -> list_eqb a b = false.
Proof. intros H. destruct (list_eqb a b) eqn:E; [apply list_eqb_true in E; congruence|reflexivity]. Qed.
Lemma upto_nul_app name : Forall (fun c => c <> 0) name -> forall r n, (length name < n)%nat -> upto_nul (name ++ 0 :: r) n = Ret name.
Proof.
  induction 1 as [|c name Hc Hn IH]; intros r n Hl; (destruct n; [cbn in Hl; lia|]); cbn [app upto_nul]; [reflexivity|].
  destruct (Z.eqb_spec c 0); [lia|]. rewrite IH by (cbn in Hl; lia). reflexivity.
Qed.
(** the name as the code cuts it *)
Lemma cut_name name r n : Forall (fun c => c <> 0) name -> (length name < n)%nat ->
  (let* b := (if 2 <? zlen name then
                   match name ++ 0 :: r with
                   | b0 :: b1 :: r' => Ret (if (b0 =? 46) && (b1 =? 47) then r' else name ++ 0 :: r)
                   | [b0] => if b0 =? 46 then UB else Ret (name ++ 0 :: r)
                   | [] => UB
                   end
                 else Ret (name ++ 0 :: r)) in upto_nul b n) = Ret (plain_name name).
Proof.
  intros Hn Hl. destruct name as [|a [|b [|c name]]].
  1,2,3: assert (forall x : list Z, (length x <= 2)%nat -> (2 <? zlen x) = false) as Hx by (intros; apply Z.ltb_ge; unfold zlen; lia);
    rewrite Hx by (cbn; lia); cbn [bind]; rewrite upto_nul_app by assumption; unfold plain_name; f_equal;
    try reflexivity; repeat (match goal with |- context [match ?z with _ => _ end] => destruct z; try reflexivity end).
  destruct (Z.ltb_spec 2 (zlen (a :: b :: c :: name))) as [_|?]; [|unfold zlen in *; cbn [length] in *; lia].
  cbn [app bind]. destruct (Z.eqb_spec a 46) as [->|Na]; [destruct (Z.eqb_spec b 47) as [->|Nb]|]; cbn [andb].
  - change (c :: name ++ 0 :: r) with ((c :: name) ++ 0 :: r). cbn [plain_name]. apply upto_nul_app; [inversion Hn as [|? ? _ H2]; inversion H2; assumption|cbn in *; lia].
  - change (46 :: b :: c :: name ++ 0 :: r) with ((46 :: b :: c :: name) ++ 0 :: r). rewrite upto_nul_app by assumption. f_equal. cbn [plain_name].
    repeat (match goal with |- context [match ?z with _ => _ end] => destruct z; try reflexivity; try congruence end).
  - change (a :: b :: c :: name ++ 0 :: r) with ((a :: b :: c :: name) ++ 0 :: r). rewrite upto_nul_app by assumption. f_equal. unfold plain_name.
    repeat (match goal with |- context [match ?z with _ => _ end] => destruct z; try reflexivity; try congruence end).
Qed.
Lemma pad4_ok x p : 0 <= x -> 0 <= p < 4 -> (x + p) mod 4 = 0 -> pad4 x = p.
Proof.
  intros Hx Hp Hm. unfold pad4. rewrite Z.rem_mod_nonneg by lia. pose proof (Z.mod_pos_bound x 4 ltac:(lia)). pose proof (Z.div_mod x 4 ltac:(lia)). pose proof (Z.div_mod (x + p) 4 ltac:(lia)).
  set (q := x / 4) in *. set (q2 := (x + p) / 4) in *. destruct (Z.eqb_spec (x mod 4) 0); lia.
Qed.

Section Cpio.
Context {P : Type}.
Variables (par : ops P Z) (full : list Z) (lim : Z).
Hypothesis Hlim : 110 <= lim.
Let R := Conforms par full False lim.

Lemma cpio_header_ok name mtime size head pre rest p v inf pad0 : cpio_head lim name mtime size head ->
  full = pre ++ head ++ rest -> R p v -> v_pos v = zlen pre ->
  exists p' v', cpio_header par p inf pad0 = Ret (p', mkInfo (plain_name name) size mtime (i_type inf), pad4 size, if list_eqb (plain_name name) trailer_name then Eof else Ok) /\
    R p' v' /\ v_pos v' = zlen pre + zlen head.
Proof.
  intros (h & pad & (a & mt & sz & b & ns & ck & Eh & Za & (Zmt & Hmt & Bmt) & (Zsz & Hsz & Bsz) & Zb & (Zns & Hns & Bns) & Zck) & Ehead & Hpad & Hmod & Hhl & Hh2 & Hname) Hfull HR Hv.
  assert (zlen h = 110) as Zh by (rewrite Eh, !zlen_app; change (zlen [48;55;48;55;48;49]) with 6; lia).
  pose proof (zlen_nonneg rest). pose proof (zlen_nonneg name). pose proof (zlen_nonneg pre).
  assert (zlen head = 110 + (zlen name + 1 + zlen pad)) as Zhead by (rewrite Ehead, !zlen_app, Zh; change (zlen [0]) with 1; lia).
  unfold cpio_header. destruct (read_exact par full lim p v 110 HR) as (p1 & E1 & _ & HR1); [lia|unfold INT32_MAX; lia|rewrite Hv, Hfull, !zlen_app; lia|].
  rewrite E1; cbn [bind Z.eqb Pos.eqb negb].
  assert (slice full (v_pos v) 110 = h) as -> by (rewrite Hfull, Ehead, Hv, <- app_assoc; apply slice_mid; lia).
  rewrite Zh. cbn [Z.leb Z.compare Pos.compare Pos.compare_cont negb].
  assert (slice h 0 6 = cpio_magic) as -> by (rewrite Eh; apply slice_pre; reflexivity). rewrite list_eqb_refl; cbn [negb].
  assert (slice h 54 8 = sz) as ->.
  { rewrite Eh. replace (_ ++ a ++ mt ++ sz ++ b ++ ns ++ ck) with (([48;55;48;55;48;49] ++ a ++ mt) ++ sz ++ b ++ ns ++ ck) by (rewrite <- !app_assoc; reflexivity). apply slice_mid; rewrite ?zlen_app; change (zlen [48;55;48;55;48;49]) with 6; lia. }
  assert (slice h 46 8 = mt) as ->.
  { rewrite Eh. replace (_ ++ a ++ mt ++ sz ++ b ++ ns ++ ck) with (([48;55;48;55;48;49] ++ a) ++ mt ++ sz ++ b ++ ns ++ ck) by (rewrite <- !app_assoc; reflexivity). apply slice_mid; rewrite ?zlen_app; change (zlen [48;55;48;55;48;49]) with 6; lia. }
  assert (slice h 94 8 = ns) as ->.
  { rewrite Eh. replace (_ ++ a ++ mt ++ sz ++ b ++ ns ++ ck) with (([48;55;48;55;48;49] ++ a ++ mt ++ sz ++ b) ++ ns ++ ck) by (rewrite <- !app_assoc; reflexivity). apply slice_mid; rewrite ?zlen_app; change (zlen [48;55;48;55;48;49]) with 6; lia. }
  rewrite (readHex_num _ _ Hsz), (readHex_num _ _ Hmt), (readHex_num _ _ Hns) by lia. cbn [bind].
  unfold INT32_MAX in *. rewrite chk32_ok by (unfold INT32_MIN, INT32_MAX; lia). cbn [bind].
  assert (pad4 (zlen name + 1 + 2) = zlen pad) as ->.
  { apply pad4_ok; [lia|exact Hpad|]. rewrite Zhead in Hmod. replace (110 + (zlen name + 1 + zlen pad)) with (zlen name + 1 + 2 + zlen pad + 27 * 4) in Hmod by lia. rewrite Z_mod_plus_full in Hmod. exact Hmod. }
  rewrite chk32_ok by (unfold INT32_MIN, INT32_MAX; lia). cbn [bind].
  destruct (read_exact par full lim p1 _ (zlen name + 1 + zlen pad) HR1) as (p2 & E2 & _ & HR2); [lia|unfold INT32_MAX; lia|cbn [v_pos]; rewrite Hv, Hfull, !zlen_app; lia|].
  rewrite E2; cbn [bind v_pos]. rewrite Z.eqb_refl; cbn [negb].
  assert (slice full (v_pos v + 110) (zlen name + 1 + zlen pad) = name ++ 0 :: pad) as ->.
  { rewrite Hfull, Ehead. replace (pre ++ (h ++ name ++ [0] ++ pad) ++ rest) with ((pre ++ h) ++ (name ++ 0 :: pad) ++ rest) by (rewrite <- !app_assoc; reflexivity).
    apply slice_mid; [rewrite zlen_app; lia|rewrite zlen_app, zlen_cons; lia]. }
  replace (zlen name + 1 - 1) with (zlen name) by lia.
  pose proof (cut_name name pad (Z.to_nat (zlen name + 1)) Hname ltac:(unfold zlen; lia)) as Hc.
  match type of Hc with bind ?e _ = _ => destruct e as [b'| | |]; cbn [bind] in Hc |- *; try discriminate end. rewrite Hc; cbn [bind].
  do 2 eexists; split; [reflexivity|]. split; [exact HR2|]. cbn [v_pos]. lia.
Qed.
Definition cpio_ready (a : cpio P) (pre pad : list Z) : Prop :=
  c_st a = Ok /\ -1 <= i_size (c_info a) /\ i_type (c_info a) = 2 /\
  match c_cur a with
  | inl p => (exists v, R p v /\ v_pos v = zlen pre) /\ pad = []
  | inr s => zlen pad = c_pad a /\ exists off n v, 0 <= off /\ 0 <= n <= INT32_MAX /\ off + n <= zlen full /\ off + n = zlen pre /\ sub_R full R off n s v
  end.
Lemma cpio_drain_ok fuel off n s v : 0 <= off -> 0 <= n <= INT32_MAX -> off + n <= zlen full -> sub_R full R off n s v ->
  exists s' v', cpio_drain par (S (S fuel)) s = Ret s' /\ R (su_par s') v' /\ v_pos v' = off + n.
Proof.
  intros H1 H2 H3 HRs. assert (HRs0 := HRs). destruct HRs0 as (_ & _ & W3 & W4 & W5 & W6 & W7 & vp & W8 & W9 & W10 & W11).
  destruct (entry_parent par full lim off n H1 H2 H3 s v HRs) as (HRp & Hsz & Hps & Hvp).
  destruct (entry_content full off n H1 H2 H3) as (E1 & E2).
  cbn [cpio_drain]. destruct (su_st s) eqn:Est.
  - destruct (entry_finish par full lim off n H1 H2 H3 s v HRs) as (s' & k & E & HRs' & Hst). rewrite E; cbn [bind]. rewrite Hst.
    destruct (entry_parent par full lim off n H1 H2 H3 s' _ HRs') as (HRp' & _). do 2 eexists; split; [reflexivity|]. split; [exact HRp'|]. reflexivity.
  - do 2 eexists; split; [reflexivity|]. split; [exact HRp|]. cbn [v_pos]. 
    assert (v_pos v = n); [|lia]. match goal with H : Eof = Eof -> _ |- _ => specialize (H eq_refl) end. rewrite ?E1, ?E2 in *. lia.
  - congruence.
Qed.
Lemma cpio_lists fuel bytes ms : cpio_archive lim bytes ms -> forall pre pad a, full = pre ++ pad ++ bytes -> 0 <= zlen pad <= INT32_MAX -> cpio_ready a pre pad ->
  lists (cpio_provider par (S (S fuel))) lim ms a.
Proof.
  intros HM. induction HM as [|head mtime size rest Hhead|head name mtime data pad2 rest ms Hhead Hnt Hp Hpm HM IH]; intros pre pad a Hfull Hpad (Hst & Hsz & Hty & Hcur).
  all: cbn [lists_end pv_next pv_entry pv_status cpio_provider]; unfold cpio_next; rewrite Hst.
  all: match goal with |- context [bind ?e _] => assert (exists p v, e = Ret p /\ R p v /\ v_pos v = zlen (pre ++ pad)) as (p & v & -> & HR & Hv) end.
  1,3,5: destruct (c_cur a) as [p|s];
    [destruct Hcur as ((v & HR & Hv) & ->); exists p, v; (split; [reflexivity|]); (split; [exact HR|]); rewrite app_nil_r; exact Hv|];
    destruct Hcur as (Hzp & off & n & v & H1 & H2 & H3 & H4 & HRs);
    destruct (cpio_drain_ok fuel off n s v H1 H2 H3 HRs) as (s' & v' & E & HRp & Hv'); rewrite E; cbn [bind];
    rewrite zlen_app; destruct (Z.eqb_spec (c_pad a) 0);
      [do 2 eexists; (split; [reflexivity|]); (split; [exact HRp|]); lia
      |destruct (skip_exact par full lim _ v' (c_pad a) HRp) as (p1 & r & Es & _ & _ & HR1); [lia|rewrite Hv', H4, Hfull, !zlen_app; match goal with |- context [zlen ?l] => pose proof (zlen_nonneg l) end; repeat match goal with |- context [zlen ?l] => lazymatch goal with H : 0 <= zlen l |- _ => fail | _ => pose proof (zlen_nonneg l) end end; lia|lia|];
       rewrite Es; cbn [bind]; do 2 eexists; (split; [reflexivity|]); (split; [exact HR1|]); cbn [v_pos]; lia].
  all: cbn [bind].
  - unfold cpio_header. destruct (at_end_read par full lim p v 110 110 HR) as (p2 & E & Hs); [cbn; unfold INT32_MAX; lia|rewrite Hv, Hfull, app_nil_r; reflexivity|].
    rewrite E; cbn [bind Z.eqb negb]. rewrite Hs. unfold sub_new. destruct (Z.ltb_spec (i_size (c_info a)) (-1)); [lia|]. cbn [bind]. eexists; split; reflexivity.
  - destruct (cpio_header_ok _ _ _ _ (pre ++ pad) rest p v (c_info a) (c_pad a) Hhead) as (p' & v' & E & HR' & Hv'); [rewrite Hfull, <- app_assoc; reflexivity|exact HR|exact Hv|].
    rewrite E; cbn [bind i_size]. assert (0 <= size) as Hs0 by (destruct Hhead as (h & pd & (a' & mt & sz & b & ns & ck & _ & _ & _ & (_ & _ & ?) & _) & _); lia).
    unfold sub_new. destruct (Z.ltb_spec size (-1)); [lia|]. cbn [bind]. change (plain_name trailer_name) with trailer_name. rewrite list_eqb_refl. eexists; split; reflexivity.
  - destruct (cpio_header_ok _ _ _ _ (pre ++ pad) (data ++ pad2 ++ rest) p v (c_info a) (c_pad a) Hhead) as (p' & v' & E & HR' & Hv'); [rewrite Hfull, <- app_assoc; reflexivity|exact HR|exact Hv|].
    rewrite E; cbn [bind i_size]. pose proof (zlen_nonneg data). rewrite (list_eqb_false _ _ Hnt).
    assert (zlen data <= INT32_MAX) as Hs0 by (destruct Hhead as (h & pd & (a' & mt & sz & b & ns & ck & _ & _ & _ & (_ & _ & ?) & _) & _); lia).
    set (pre2 := (pre ++ pad) ++ head). assert (full = pre2 ++ data ++ pad2 ++ rest) as Q4 by (unfold pre2; rewrite Hfull, <- !app_assoc; reflexivity).
    assert (v_pos v' = zlen pre2) as Hv2 by (unfold pre2; rewrite zlen_app; exact Hv'). pose proof (zlen_nonneg pre2).
    assert (zlen pre2 + zlen data <= zlen full) as Hfit by (rewrite Q4, !zlen_app; pose proof (zlen_nonneg pad2); pose proof (zlen_nonneg rest); lia).
    assert (slice full (zlen pre2) (zlen data) = data) as Hdata by (rewrite Q4; apply slice_mid; reflexivity).
    destruct (entry_new par full lim (zlen pre2) (zlen data) ltac:(lia) p' v' HR' Hv2) as (s & En & HRs). rewrite En; cbn [bind].
    rewrite Hty. eexists; split; [reflexivity|]. split; [reflexivity|]. intros h Hh. unfold cpio_entry. cbn [c_cur m_data] in Hh |- *.
    destruct (entry_run par full lim (zlen pre2) (zlen data) ltac:(lia) ltac:(lia) ltac:(lia) h s view0 HRs) as (s' & obs & v2 & Er & Ha & HRs'); [rewrite Hdata; exact Hh|].
    rewrite Er; cbn [bind]. rewrite Hdata in Ha. do 2 eexists; split; [reflexivity|]. split; [exact Ha|].
    apply (IH (pre2 ++ data) pad2); [rewrite Q4, <- app_assoc; reflexivity|unfold INT32_MAX; lia|].
    split; [reflexivity|]. cbn [c_info i_size i_type c_cur c_pad]. split; [lia|]. split; [reflexivity|]. split; [symmetry; apply pad4_ok; lia|].
    exists (zlen pre2), (zlen data), v2. rewrite zlen_app. do 4 (split; [lia|]). exact HRs'.
Qed.
End Cpio.
