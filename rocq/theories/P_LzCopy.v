(** A toy LZMA decoder: "1, b" stands for the byte b, "0" is the end mark.  Only used to show that the assumptions about
    the decoder (LzmaSpec.v) can be met for any content. *)
From Verif Require Import Base InflateSpec M_Lzma LzmaSpec.

Definition lit (x : list Z) : list Z := concat (map (fun b => [1; b]) x).
Fixpoint cp_dec (r : list Z) : list Z := match r with c :: b :: r => if c =? 1 then b :: cp_dec r else [] | _ => [] end.
Definition cp_valid (c x : list Z) : Prop := c = lit x \/ c = lit x ++ [0].
Definition cp_marked (c x : list Z) : Prop := c = lit x ++ [0].
Definition cp_format : lzformat := mkLzformat cp_dec cp_valid cp_marked.
Definition cp_step (half : bool) (w : list Z) (space : Z) (fin : bool) : bool * Z * list Z * lcode :=
  match half, w with
  | true, b :: _ => (false, 1, [b], LOk false)
  | false, c :: _ => if c =? 1 then (true, 1, [], LOk false) else if c =? 0 then (false, 1, [], LOk true) else (false, 0, [], LBad)
  | _, [] => (false, 0, [], LBad)
  end.
Definition cp_codec : lzcodec bool := mkLzcodec _ false cp_step.
Definition cp_DI (half : bool) (u o : list Z) : Prop := u = lit o ++ (if half then [1] else []).

Lemma lit_app a b : lit (a ++ b) = lit a ++ lit b.
Proof. unfold lit. rewrite map_app, concat_app. reflexivity. Qed.
Lemma cp_dec_lit x t : cp_dec (lit x ++ t) = x ++ cp_dec t.
Proof. induction x as [|b x IH]; [reflexivity|]. change (lit (b :: x) ++ t) with (1 :: b :: (lit x ++ t)). cbn [cp_dec]. change (1 =? 1) with true. cbn iota. rewrite IH. reflexivity. Qed.
(** complete data that is a part of other data *)
Lemma lit_prefix : forall x o h t, lit x ++ t = lit o ++ h -> (h = [] \/ h = [1]) -> t <> [] \/ h = [] -> exists y, o = x ++ y.
Proof.
  induction x as [|b x IH]; intros o h t E Hh Ht; [exists o; reflexivity|]. destruct o as [|a o].
  - cbn in E. change (lit (b :: x) ++ t) with (1 :: b :: (lit x ++ t)) in E. destruct Hh as [-> | ->]; discriminate.
  - change (lit (b :: x) ++ t) with (1 :: b :: (lit x ++ t)) in E. change (lit (a :: o) ++ h) with (1 :: a :: (lit o ++ h)) in E. injection E as -> E.
    destruct (IH o h t E Hh Ht) as (y & ->). exists y. reflexivity.
Qed.
Lemma lit_zero : forall x o h t, lit x ++ 0 :: t = lit o ++ h -> (h = [] \/ h = [1]) -> False.
Proof.
  induction x as [|b x IH]; intros o h t E Hh.
  - destruct o as [|a o]; [destruct Hh as [-> | ->]; discriminate|]. discriminate.
  - change (lit (b :: x) ++ 0 :: t) with (1 :: b :: (lit x ++ 0 :: t)) in E. destruct o as [|a o]; [destruct Hh as [-> | ->]; discriminate|].
    change (lit (a :: o) ++ h) with (1 :: a :: (lit o ++ h)) in E. injection E as _ E. exact (IH o h t E Hh).
Qed.
(** complete data in front of a byte that is no token *)
Lemma lit_bad : forall x o c w t, lit x ++ t = lit o ++ c :: w -> c <> 1 -> exists y, o = x ++ y.
Proof.
  induction x as [|b x IH]; intros o c w t E Hc; [exists o; reflexivity|]. destruct o as [|a o].
  - change (lit (b :: x) ++ t) with (1 :: b :: (lit x ++ t)) in E. cbn in E. congruence.
  - change (lit (b :: x) ++ t) with (1 :: b :: (lit x ++ t)) in E. change (lit (a :: o) ++ c :: w) with (1 :: a :: (lit o ++ c :: w)) in E. injection E as -> E.
    destruct (IH o c w t E Hc) as (y & ->). exists y. reflexivity.
Qed.
Lemma cp_ok : lzma_ok cp_format cp_codec cp_DI.
Proof.
  assert (forall x t, prefix x (cp_dec (lit x ++ t))) as Hpre by (intros x t; rewrite cp_dec_lit; eexists; reflexivity).
  split; cbn [lz_dec lz_valid lz_marked cp_format l_init l_step cp_codec].
  - intros c x t [-> | ->]; [apply Hpre|rewrite <- app_assoc; apply Hpre].
  - intros c x ->. split; [right; reflexivity|]. intros t. rewrite <- app_assoc, cp_dec_lit. cbn. destruct t; apply app_nil_r.
  - reflexivity.
  - intros d u o c t x HD [-> | ->] E Ht; unfold cp_DI in HD; rewrite HD in E.
    + symmetry in E. destruct (lit_prefix x o _ t E) as (y & ->); [destruct d; auto|left; exact Ht|]. rewrite zlen_app. pose proof (zlen_nonneg y). lia.
    + exfalso. rewrite <- app_assoc in E. cbn [app] in E. symmetry in E. apply (lit_zero x o _ t E). destruct d; auto.
  - intros d u o c t x HD -> E. unfold cp_DI in HD. rewrite HD in E. rewrite <- app_assoc in E. cbn [app] in E. symmetry in E. apply (lit_zero x o _ t E). destruct d; auto.
  - intros d u o w space fin d' k y r HD Hw Hs E. destruct w as [|c w]; [congruence|]. unfold cp_DI in HD. pose proof (zlen_nonneg w) as Zw. unfold cp_step in E. destruct d.
    + injection E as <- <- <- <-. rewrite zlen_cons. change (zlen [c]) with 1. split; [lia|]. split; [lia|]. split.
      * intros t. rewrite HD, <- !app_assoc. cbn [app]. change (lit o ++ 1 :: c :: w ++ t) with (lit o ++ lit [c] ++ (w ++ t)). rewrite app_assoc, <- lit_app. apply Hpre.
      * split; [lia|]. change (Z.to_nat 1) with 1%nat. cbn [firstn]. unfold cp_DI. rewrite HD, lit_app, <- !app_assoc. reflexivity.
    + rewrite app_nil_r in HD. destruct (Z.eqb_spec c 1) as [->|N1]; [|destruct (Z.eqb_spec c 0) as [->|N0]]; injection E as <- <- <- <-; rewrite zlen_cons; change (zlen (@nil Z)) with 0; rewrite app_nil_r.
      * split; [lia|]. split; [lia|]. split; [intros t; rewrite HD; apply Hpre|]. split; [lia|]. change (Z.to_nat 1) with 1%nat. cbn [firstn]. unfold cp_DI. rewrite HD. reflexivity.
      * split; [lia|]. split; [lia|]. split; [intros t; rewrite HD; apply Hpre|]. split; [lia|]. change (Z.to_nat 1) with 1%nat. cbn [firstn]. unfold cp_marked. rewrite HD. reflexivity.
      * split; [lia|]. split; [lia|]. split; [intros t; rewrite HD; apply Hpre|]. intros t cc b x E Hv. rewrite HD in E. cbn [app] in E.
        assert (exists z, o = x ++ z) as (z & ->).
        { destruct Hv as [-> | ->]; [symmetry in E; exact (lit_bad x o c _ b E N1)|]. rewrite <- app_assoc in E. cbn [app] in E. symmetry in E. exact (lit_bad x o c _ _ E N1). }
        rewrite zlen_app. pose proof (zlen_nonneg z). match goal with |- if _ then _ else ?Q /\ _ => assert Q as HQ; [|destruct fin; [lia|split; [exact HQ|lia]]] end.
        intros ->. rewrite <- app_assoc in E. cbn [app] in E. rewrite lit_app, <- app_assoc in E. apply app_inv_head in E. destruct z as [|a z]; [cbn in E; congruence|]. cbn in E. congruence.
Qed.
