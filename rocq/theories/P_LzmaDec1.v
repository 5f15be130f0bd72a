(** The bits of the LZMA decoder: LzmaDec.c against the range coder of LzmaFormatSpec.v. *)
From Verif Require Import Base LzmaFormatSpec P_LzmaFormat P_LzmaFormat2 M_LzmaDec.

Definition px (pr : props) : lzprops := mkLzprops (p_lc pr) (p_lp pr) (p_pb pr) (p_dicSize pr).

(** ** The layout of the probabilities *)
Definition lenbase (rep : bool) : Z := if rep then 1332 else 818.
Definition idx (c : ctx) : Z :=
  match c with
  | CMatch s p => 16 * s + p
  | CRep s => 192 + s | CRepG0 s => 204 + s | CRepG1 s => 216 + s | CRepG2 s => 228 + s
  | CRep0Long s p => 240 + 16 * s + p
  | CSlot l n => 432 + 64 * l + n
  | CSpecial s n => 688 + (2 + s mod 2) * 2 ^ (s / 2 - 1) - s - 1 + n
  | CAlign n => 802 + n
  | CLenChoice r => lenbase r | CLenChoice2 r => lenbase r + 1
  | CLenLow r p n => lenbase r + 2 + 8 * p + n
  | CLenMid r p n => lenbase r + 130 + 8 * p + n
  | CLenHigh r n => lenbase r + 258 + n
  | CLiteral l n => 1846 + 768 * l + n
  end.
Definition ctx_ok (pr : props) (c : ctx) : Prop :=
  match c with
  | CMatch s p | CRep0Long s p => 0 <= s < 12 /\ 0 <= p < 16
  | CRep s | CRepG0 s | CRepG1 s | CRepG2 s => 0 <= s < 12
  | CSlot l n => 0 <= l < 4 /\ 1 <= n < 64
  | CSpecial s n => 4 <= s < 14 /\ 1 <= n < 2 ^ (s / 2 - 1)
  | CAlign n => 1 <= n < 16
  | CLenChoice _ | CLenChoice2 _ => True
  | CLenLow _ p n | CLenMid _ p n => 0 <= p < 16 /\ 1 <= n < 8
  | CLenHigh _ n => 1 <= n < 256
  | CLiteral l n => 0 <= l < 2 ^ (p_lc pr + p_lp pr) /\ 1 <= n < 768
  end.
Lemma special_slots s : 4 <= s < 14 -> In s [4;5;6;7;8;9;10;11;12;13].
Proof. intros H. cbn. lia. Qed.
Definition spec_base (s : Z) : Z := (2 + s mod 2) * 2 ^ (s / 2 - 1) - s - 1.
Definition spec_size (s : Z) : Z := 2 ^ (s / 2 - 1).
Lemma spec_table s : In s [4;5;6;7;8;9;10;11;12;13] -> In (s, spec_base s, spec_size s)
  [(4,-1,2);(5,0,2);(6,1,4);(7,4,4);(8,7,8);(9,14,8);(10,21,16);(11,36,16);(12,51,32);(13,82,32)].
Proof.
  cbn [In]. intros H. destruct H as [<-|[<-|[<-|[<-|[<-|[<-|[<-|[<-|[<-|[<-|[]]]]]]]]]]]; vm_compute; tauto.
Qed.
Lemma spec_range s n : 4 <= s < 14 -> 1 <= n < spec_size s -> 0 <= spec_base s + n < 114.
Proof.
  intros Hs Hn. pose proof (spec_table s (special_slots s Hs)) as H. cbn [In] in H.
  repeat destruct H as [H|H]; try contradiction; injection H as ? E1 E2; lia.
Qed.
Lemma spec_inj s n s' n' : 4 <= s < 14 -> 1 <= n < spec_size s -> 4 <= s' < 14 -> 1 <= n' < spec_size s' -> spec_base s + n = spec_base s' + n' -> s = s' /\ n = n'.
Proof.
  intros Hs Hn Hs' Hn' E. pose proof (spec_table s (special_slots s Hs)) as H. pose proof (spec_table s' (special_slots s' Hs')) as H'. cbn [In] in H, H'.
  repeat destruct H as [H|H]; try contradiction; injection H as ? E1 E2; repeat destruct H' as [H'|H']; try contradiction; injection H' as ? E1' E2'; lia.
Qed.
Lemma idx_inj pr c d : ctx_ok pr c -> ctx_ok pr d -> idx c = idx d -> c = d.
Proof.
  intros Hc Hd.
  assert (forall s n, ctx_ok pr (CSpecial s n) -> 688 <= idx (CSpecial s n) < 802) as HS.
  { intros s n (H1 & H2). pose proof (spec_range s n H1 H2). unfold spec_base, idx in *. lia. }
  destruct c as [s p|s|s|s|s|s p|r|r|r p n|r p n|r n|l n|s n|n|l n]; destruct d as [s' p'|s'|s'|s'|s'|s' p'|r'|r'|r' p' n'|r' p' n'|r' n'|l' n'|s' n'|n'|l' n'];
    try (specialize (HS _ _ Hc) as HS1); try (specialize (HS _ _ Hd) as HS2); clear HS;
    try (match goal with |- idx (CSpecial _ _) = idx (CSpecial _ _) -> _ => fail 1 | _ => idtac end;
         cbn [ctx_ok idx lenbase] in Hc, Hd |- *; try destruct r; try destruct r'; cbn [lenbase]; intros E; try (exfalso; cbn [idx] in *; lia)).
  all: try (f_equal; cbn [idx lenbase] in *; lia).
  intros E. destruct Hc as (Hc1 & Hc2), Hd as (Hd1 & Hd2). destruct (spec_inj s n s' n' Hc1 Hc2 Hd1 Hd2) as (-> & ->); [|reflexivity]. unfold idx, spec_base in *. lia.
Qed.
Lemma idx_range pr c : 0 <= p_lc pr + p_lp pr -> ctx_ok pr c -> 0 <= idx c < numProbs pr.
Proof.
  intros Hl Hc. unfold numProbs. assert (0 < 2 ^ (p_lc pr + p_lp pr)) by (apply Z.pow_pos_nonneg; lia). change Literal with 1846.
  destruct c as [s p|s|s|s|s|s p|r|r|r p n|r p n|r n|l n|s n|n|l n]; cbn [ctx_ok idx] in *; try destruct r; cbn [lenbase]; try lia.
  destruct Hc as (H1 & H2). pose proof (spec_range s n H1 H2). unfold spec_base in *. lia.
Qed.

(** ** The registers *)
Definition probs_ok (pr : props) (l : list Z) (f : ctx -> Z) : Prop :=
  zlen l = numProbs pr /\ forall c, ctx_ok pr c -> zget l (idx c) = Some (f c).
Definition at_in (src : list Z) (buf : Z) (t : list Z) : Prop := 0 <= buf <= zlen src /\ t = skipn (Z.to_nat buf) src.
Record CR (pr : props) (src : list Z) (r : rc) (k : coder) : Prop := {
  cr_range : r_range r = k_range k; cr_code : r_code r = k_code k; cr_in : at_in src (r_buf r) (k_in k);
  cr_probs : probs_ok pr (r_probs r) (k_probs k); cr_good : kgood k }.
(** [o] does what the program [pg] asks for, if there is enough input *)
Definition im {A B} (o : out B) (pg : prog A) (k : coder) (R : B -> A -> coder -> Prop) : Prop :=
  forall a k', decode pg k = Some (a, k') -> exists x, o = Ret x /\ R x a k'.
Lemma im_bind {A B C D} (o : out B) (f : B -> out D) (pg : prog A) (g : A -> prog C) k R S :
  im o pg k R -> (forall x a k', R x a k' -> im (f x) (g a) k' S) -> im (bind o f) (pbind pg g) k S.
Proof.
  intros H1 H2 c k'. rewrite decode_bind. destruct (decode pg k) as [(a, k1)|] eqn:E; [|discriminate]. intros E2.
  destruct (H1 _ _ E) as (x & -> & HR). cbn [bind]. exact (H2 _ _ _ HR _ _ E2).
Qed.
Lemma im_done {A B} (x : B) (a : A) k (R : B -> A -> coder -> Prop) : R x a k -> im (Ret x) (Done a) k R.
Proof. intros H a' k' E. injection E as <- <-. eauto. Qed.
Lemma im_impl {A B} (o : out B) (pg : prog A) k (R S : B -> A -> coder -> Prop) : im o pg k R -> (forall x a k', R x a k' -> S x a k') -> im o pg k S.
Proof. intros H HI a k' E. destruct (H a k' E) as (x & -> & HR). eauto. Qed.
Lemma im_returns {A B} (o : out B) (pg : prog A) k (R : B -> A -> coder -> Prop) Q : im o pg k R -> returns pg Q -> im o pg k (fun x a k' => R x a k' /\ Q a).
Proof. intros H HQ a k' E. destruct (H a k' E) as (x & -> & HR). exists x. split; [reflexivity|]. split; [exact HR|exact (returns_decode _ _ _ _ _ HQ E)]. Qed.
Lemma pbind_done {A} (p : prog A) : forall k, decode (pbind p Done) k = decode p k.
Proof. intros k. rewrite decode_bind. destruct (decode p k) as [(a, k')|]; reflexivity. Qed.
Lemma im_map {A B D} (o : out B) (f : B -> out D) (pg : prog A) k R S :
  im o pg k R -> (forall x a k', R x a k' -> exists y, f x = Ret y /\ S y a k') -> im (bind o f) pg k S.
Proof. intros H1 H2 a k' E. destruct (H1 _ _ E) as (x & -> & HR). cbn [bind]. exact (H2 _ _ _ HR). Qed.

Lemma at_in_cons src buf b t : at_in src buf (b :: t) -> zget src buf = Some b /\ at_in src (buf + 1) t.
Proof.
  intros (H1 & H2).
  assert (zget src buf = Some b) as Hg.
  { pose proof (zget_skipn src (Z.to_nat buf) 0) as E. rewrite <- H2 in E. change (0 <? 0) with false in E. cbv iota in E. rewrite Z2Nat.id in E by lia. rewrite Z.add_0_l in E. rewrite <- E. reflexivity. }
  split; [exact Hg|]. pose proof (zget_some_inv _ _ _ Hg) as Hl. split; [lia|].
  replace (Z.to_nat (buf + 1)) with (1 + Z.to_nat buf)%nat by lia. rewrite <- skipn_skipn'. rewrite <- H2. reflexivity.
Qed.

Lemma at_in_nil src buf : at_in src buf [] -> buf = zlen src.
Proof.
  intros (H1 & H2). assert (length (skipn (Z.to_nat buf) src) = 0%nat) as L by (rewrite <- H2; reflexivity). rewrite skipn_length in L. unfold zlen in *. lia.
Qed.
Lemma u32_id z : 0 <= z < 4294967296 -> u32 z = z.
Proof. intros H. unfold u32. apply Z.mod_small. lia. Qed.
Lemma normalize_ok pr src r k k' : CR pr src r k -> norm k = Some k' -> exists r', normalize src r = Ret r' /\ CR pr src r' k'.
Proof.
  intros [C1 C2 C3 C4 C5] E. destruct (norm_good _ _ C5 E) as (G & _ & _). unfold norm in E. unfold normalize. rewrite C1. change (2 ^ 24) with 16777216 in E. change (2 ^ 32) with 4294967296 in E.
  destruct (Z.ltb_spec (k_range k) 16777216); [|injection E as <-; eexists; split; [reflexivity|constructor; assumption]].
  destruct (k_in k) as [|b t] eqn:Ek; [discriminate|]. injection E as <-. destruct (at_in_cons _ _ _ _ C3) as (Hg & Ha). unfold aget. rewrite Hg. cbn [bind]. eexists; split; [reflexivity|].
  destruct C5 as (_ & R & _). constructor; cbn; [rewrite u32_id by lia; reflexivity|rewrite C2; reflexivity|exact Ha|exact C4|exact G].
Qed.
Lemma probs_set pr l f c v : 0 <= p_lc pr + p_lp pr -> ctx_ok pr c -> probs_ok pr l f -> aset l (idx c) v = Ret (splice l (idx c) [v]) /\ probs_ok pr (splice l (idx c) [v]) (set_prob f c v).
Proof.
  intros Hl Hc (P1 & P2). pose proof (idx_range pr c Hl Hc) as Hr. assert (zlen [v] = 1) as L1 by reflexivity. split.
  - unfold aset. rewrite P1. destruct (Z.leb_spec 0 (idx c)); [|lia]. destruct (Z.ltb_spec (idx c) (numProbs pr)); [|lia]. reflexivity.
  - split; [rewrite zlen_splice by lia; exact P1|]. intros d Hd. rewrite zget_splice by lia. rewrite L1. unfold set_prob. destruct (ctx_dec d c) as [->|Hn].
    + destruct (Z.leb_spec (idx c) (idx c)); [|lia]. destruct (Z.ltb_spec (idx c) (idx c + 1)); [|lia]. cbn [andb]. rewrite Z.sub_diag. reflexivity.
    + destruct (Z.leb_spec (idx c) (idx d)); [|apply P2, Hd]. destruct (Z.ltb_spec (idx d) (idx c + 1)); [|apply P2, Hd]. exfalso. apply Hn, (idx_inj pr); [assumption..|lia].
Qed.
(** the value of a bit, computed with 32 bits *)
Lemma bit_arith k c : kgood k -> normal k ->
  u32 (k_range k / 2048 * k_probs k c) = k_range k / 2048 * k_probs k c /\
  u16 (k_probs k c + u32 (2048 - k_probs k c) / 32) = k_probs k c + (2048 - k_probs k c) / 32 /\
  u16 (k_probs k c - k_probs k c / 32) = k_probs k c - k_probs k c / 32 /\
  u32 (k_range k - k_range k / 2048 * k_probs k c) = k_range k - k_range k / 2048 * k_probs k c /\
  (k_range k / 2048 * k_probs k c <= k_code k -> u32 (k_code k - k_range k / 2048 * k_probs k c) = k_code k - k_range k / 2048 * k_probs k c).
Proof.
  intros (G1 & G2 & G3) N. specialize (G1 c). unfold normal in N. set (v := k_probs k c) in *.
  assert (k_range k - 2047 <= 2048 * (k_range k / 2048) <= k_range k) as Hq by (pose proof (Z.div_mod (k_range k) 2048 ltac:(lia)); pose proof (Z.mod_pos_bound (k_range k) 2048 ltac:(lia)); lia).
  set (q := k_range k / 2048) in *. assert (0 <= q * v <= q * 2048) as Hb by nia. remember (q * v) as w eqn:Ew. clear Ew.
  rewrite (u32_id (2048 - v)) by lia.
  assert (0 <= (2048 - v) / 32 <= 2048) by (pose proof (Z.div_mod (2048 - v) 32 ltac:(lia)); pose proof (Z.mod_pos_bound (2048 - v) 32 ltac:(lia)); lia).
  assert (0 <= v / 32 <= v) by (pose proof (Z.div_mod v 32 ltac:(lia)); pose proof (Z.mod_pos_bound v 32 ltac:(lia)); lia).
  unfold u16. rewrite !Z.mod_small by lia. rewrite (u32_id w) by lia. rewrite (u32_id (k_range k - w)) by lia. split; [reflexivity|]. split; [reflexivity|]. split; [reflexivity|]. split; [reflexivity|]. intros. apply u32_id. lia.
Qed.
Definition RB (pr : props) (src : list Z) : rc * bool -> bool -> coder -> Prop := fun x b k => CR pr src (fst x) k /\ snd x = b.
Lemma bit_ok pr src c r k : 0 <= p_lc pr + p_lp pr -> ctx_ok pr c -> CR pr src r k -> im (bit src (idx c) r) (one c) k (RB pr src).
Proof.
  intros Hl Hc C b k'. cbn [one decode]. destruct (norm k) as [k1|] eqn:E; [|discriminate]. destruct (normalize_ok _ _ _ _ _ C E) as (r1 & En & C1).
  destruct (norm_good _ _ (cr_good _ _ _ _ C) E) as (G & N & Ep). unfold bit. unfold aget at 1. rewrite (proj2 (cr_probs _ _ _ _ C) c Hc). cbn [bind]. rewrite En. cbn [bind]. rewrite <- Ep.
  destruct (bit_arith k1 c G N) as (A1 & A2 & A3 & A4 & A5). destruct C1 as [R1 R2 R3 R4 R5]. rewrite R1, R2, A1, A2, A3, A4.
  destruct (coded_good c k1 G N) as (G' & _). unfold coded in *. destruct (Z.ltb_spec (k_code k1) (k_range k1 / 2048 * k_probs k1 c)).
  - intros Q; injection Q as <- <-. destruct (probs_set pr _ _ c (k_probs k1 c + (2048 - k_probs k1 c) / 32) Hl Hc R4) as (-> & P). cbn [bind].
    eexists; split; [reflexivity|]. split; [|reflexivity]. constructor; cbn; try reflexivity; assumption.
  - intros Q; injection Q as <- <-. destruct (probs_set pr _ _ c (k_probs k1 c - k_probs k1 c / 32) Hl Hc R4) as (-> & P). cbn [bind]. rewrite A5 by lia.
    eexists; split; [reflexivity|]. split; [|reflexivity]. constructor; cbn; try reflexivity; assumption.
Qed.
