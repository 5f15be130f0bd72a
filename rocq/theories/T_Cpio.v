(** C23: CpioInputStream lists the members of every newc cpio archive. *)
From Verif Require Import Base StreamSpec P_Stream M_StringStream P_StringStream M_Sub ArchiveSpec M_Cpio CpioSpec P_Archive P_Cpio.

(** As C22, for cpio: over any conforming input in front of the archive. *)
Theorem C23_cpio_lists_members : forall (P : Type) (par : ops P Z) full lim p v pre bytes ms,
  Conforms par full False lim p v -> 110 <= lim -> full = pre ++ bytes -> zlen pre = v_pos v ->
  cpio_archive lim bytes ms ->
  forall fuel, (2 <= fuel)%nat -> lists (cpio_provider par fuel) lim ms (cpio_new p).
Proof.
  intros P par full lim p v pre bytes ms HC Hlim Hfull Hpre HM fuel Hf. destruct fuel as [|[|fuel]]; [lia|lia|].
  apply (cpio_lists par full lim Hlim fuel bytes ms HM pre []); [exact Hfull|unfold zlen, INT32_MAX; cbn; lia|].
  split; [reflexivity|]. cbn. split; [lia|]. split; [reflexivity|]. split; [|reflexivity]. exists v. split; [exact HC|lia].
Qed.
Definition hx (n : Z) : list Z := let d k := let v := (n / 16 ^ k) mod 16 in if v <? 10 then 48 + v else 87 + v in [d 7; d 6; d 5; d 4; d 3; d 2; d 1; d 0].
Definition cpio_h (mtime size namesize : Z) : list Z :=
  [48;55;48;55;48;49] ++ (hx 1 ++ hx 33188 ++ hx 0 ++ hx 0 ++ hx 1) ++ hx mtime ++ hx size ++ (hx 0 ++ hx 0 ++ hx 0 ++ hx 0) ++ hx namesize ++ hx 0.
Definition cpio_sample : list Z :=
  (cpio_h 1234567890 5 4 ++ [46;47;97] ++ [0] ++ [0;0]) ++ [1;2;3;4;5] ++ [0;0;0] ++
  (cpio_h 77 0 5 ++ [98;98;98;98] ++ [0] ++ [0]) ++ [] ++ [] ++
  (cpio_h 0 0 11 ++ trailer_name ++ [0] ++ [0;0;0]) ++ [0;0;0;0].
Definition cpio_sample_members : list member :=
  [mkMember (mkInfo [97] 5 1234567890 2) [1;2;3;4;5]; mkMember (mkInfo [98;98;98;98] 0 77 2) []].
Lemma hx_ok n : 0 <= n <= INT32_MAX -> hex8 (hx n) n.
Proof.
  intros Hn. split; [reflexivity|]. split; [|exact Hn]. unfold INT32_MAX in Hn.
  assert (forall v, 0 <= v < 16 -> hexdigit (if v <? 10 then 48 + v else 87 + v) v) as Hd by (intros v Hv; unfold hexdigit; destruct (Z.ltb_spec v 10); lia).
  assert (forall k, 0 <= k -> 0 <= (n / 16 ^ k) mod 16 < 16) as Hm by (intros; apply Z.mod_pos_bound; lia).
  assert (forall l k, 0 <= k -> hexnum l (n / 16 ^ (k + 1)) -> hexnum (l ++ [let v := (n / 16 ^ k) mod 16 in if v <? 10 then 48 + v else 87 + v]) (n / 16 ^ k)) as Hs.
  { intros l k Hk H. assert (n / 16 ^ k = n / 16 ^ (k + 1) * 16 + (n / 16 ^ k) mod 16) as E.
    { rewrite Z.pow_add_r, <- Z.div_div by lia. change (16 ^ 1) with 16. pose proof (Z.div_mod (n / 16 ^ k) 16 ltac:(lia)). lia. }
    pose proof (hex_snoc l _ _ _ H (Hd _ (Hm k Hk))) as Q. rewrite <- E in Q. exact Q. }
  assert (hexnum [] (n / 16 ^ (7 + 1))) as H0 by (rewrite Z.div_small by (cbn; lia); constructor).
  apply Hs in H0; [|lia]. apply (Hs _ 6) in H0; [|lia]. apply (Hs _ 5) in H0; [|lia]. apply (Hs _ 4) in H0; [|lia].
  apply (Hs _ 3) in H0; [|lia]. apply (Hs _ 2) in H0; [|lia]. apply (Hs _ 1) in H0; [|lia]. apply (Hs _ 0) in H0; [|lia].
  assert (n / 16 ^ 0 = n) as E by (rewrite Z.pow_0_r; apply Z.div_1_r). refine (eq_ind _ (hexnum (hx n)) H0 _ E).
Qed.
Lemma cpio_h_ok mtime size ns : 0 <= mtime <= INT32_MAX -> 0 <= size <= INT32_MAX -> 0 <= ns <= INT32_MAX -> cpio_hdr mtime size ns (cpio_h mtime size ns).
Proof.
  intros H1 H2 H3. exists (hx 1 ++ hx 33188 ++ hx 0 ++ hx 0 ++ hx 1), (hx mtime), (hx size), (hx 0 ++ hx 0 ++ hx 0 ++ hx 0), (hx ns), (hx 0).
  split; [reflexivity|]. split; [reflexivity|]. split; [apply hx_ok; exact H1|]. split; [apply hx_ok; exact H2|]. split; [reflexivity|]. split; [apply hx_ok; exact H3|reflexivity].
Qed.
Ltac chead h pad := exists h, pad; split; [apply cpio_h_ok; unfold zlen, INT32_MAX; cbn; lia|]; split; [reflexivity|]; split; [unfold zlen; cbn; lia|]; split; [reflexivity|]; split; [unfold zlen; cbn; lia|]; split; [unfold zlen, INT32_MAX; cbn; lia|]; repeat (apply Forall_cons; [lia|]); apply Forall_nil.
Example C23_case : cpio_archive 2147483647 cpio_sample cpio_sample_members.
Proof.
  apply (cp_file _ (cpio_h 1234567890 5 4 ++ [46;47;97] ++ [0] ++ [0;0]) [46;47;97] 1234567890 [1;2;3;4;5] [0;0;0]); [chead (cpio_h 1234567890 5 4) [0;0]|discriminate|unfold zlen; cbn; lia|reflexivity|].
  apply (cp_file _ (cpio_h 77 0 5 ++ [98;98;98;98] ++ [0] ++ [0]) [98;98;98;98] 77 [] []); [chead (cpio_h 77 0 5) [0]|discriminate|unfold zlen; cbn; lia|reflexivity|].
  apply (cp_trailer _ (cpio_h 0 0 11 ++ trailer_name ++ [0] ++ [0;0;0]) 0 0 [0;0;0;0]). chead (cpio_h 0 0 11) [0;0;0].
Qed.
Example C23_case_run : exists s, ss_new (Z.eqb 0) cpio_sample (zlen cpio_sample) = Ret s /\ lists (cpio_provider ss_ops 2) INT32_MAX cpio_sample_members (cpio_new s).
Proof.
  eexists; split; [vm_compute; reflexivity|]. 
  apply (C23_cpio_lists_members _ ss_ops cpio_sample INT32_MAX (mkSS cpio_sample (zlen cpio_sample) 0 Ok) view0 [] cpio_sample cpio_sample_members).
  - apply ss_conforms. vm_compute. discriminate.
  - unfold INT32_MAX; lia.
  - reflexivity.
  - reflexivity.
  - exact C23_case.
  - lia.
Qed.
(** the same run computed: what a consumer sees that reads 3 bytes of the first entry and skips the rest *)
Example C23_case_iterate : exists st, iterate (cpio_provider ss_ops 2) [[Read 3 3]; [Read 1 0]; []] (cpio_new (mkSS cpio_sample (zlen cpio_sample) 0 Ok)) =
  Ret (st, [(mkInfo [97] 5 1234567890 2, [mkObs 3 [1;2;3] 3 5 Ok]); (mkInfo [98;98;98;98] 0 77 2, [mkObs (-1) [] 0 0 Eof])]).
Proof. eexists. vm_compute. reflexivity. Qed.
