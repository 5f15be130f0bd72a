(** C24: TarInputStream lists the members of tar archives. *)
From Verif Require Import Base StreamSpec P_Stream M_StringStream P_StringStream M_Sub ArchiveSpec M_Tar TarSpec P_Archive P_Tar.

(** As C22, for tar archives closed by at least three blocks of zeros; with one or two of them all
    members are still listed, but the final status may be Error. GNU long names are announced as
    stored, that is with their NUL (see C24_long_name_refuted). *)
Theorem C24_tar_lists_members_partial : forall (P : Type) (par : ops P Z) full lim p v pre bytes k ms,
  Conforms par full False lim p v -> 512 <= lim -> full = pre ++ bytes -> zlen pre = v_pos v ->
  tar_archive lim k bytes ms -> (1 <= k)%nat ->
  forall fuel, (length bytes < fuel)%nat ->
    lists_end (fun st => st <> Ok /\ ((3 <= k)%nat -> st = Eof)) (tar_provider par fuel) lim ms (tar_new p).
Proof.
  intros P par full lim p v pre bytes k ms HC Hlim Hfull Hpre HM Hk fuel Hf.
  apply (tar_lists par full lim Hlim k fuel Hk ms bytes pre []); [exact HM|exact Hfull|unfold zlen, INT32_MAX; cbn; lia| |exact Hf].
  split; [reflexivity|]. cbn. split; [|reflexivity]. exists v. split; [exact HC|lia].
Qed.

Definition oc (n : Z) : list Z := map (fun k => 48 + (n / 8 ^ k) mod 8) [10;9;8;7;6;5;4;3;2;1;0].
Definition tar_h (name : list Z) (size mtime ty : Z) : list Z :=
  (name ++ repeat 0 (100 - length name)) ++ [48;48;48;48;54;52;52;0] ++ [48;48;48;48;48;48;48;0] ++ [48;48;48;48;48;48;48;0] ++
  (oc size ++ [0]) ++ (oc mtime ++ [0]) ++ repeat 32 8 ++ [ty] ++ (repeat 0 99 ++ [0]) ++ repeat 0 255.
Definition pad512 (d : list Z) (k : nat) : list Z := d ++ repeat 0 k.
Lemma oc_ok n : 0 <= n <= INT32_MAX -> oct_field n (oc n ++ [0]).
Proof.
  intros Hn. unfold INT32_MAX in Hn. exists 0%nat, (oc n), 0, []. split; [reflexivity|]. split; [discriminate|].
  assert (forall k, 0 <= k -> 0 <= (n / 8 ^ k) mod 8 < 8) as Hm by (intros; apply Z.mod_pos_bound; lia).
  split; [unfold oc; repeat (apply Forall_cons; [match goal with |- context [8 ^ ?k] => specialize (Hm k ltac:(lia)); lia end|]); apply Forall_nil|].
  split; [|split; [auto|constructor]].
  assert (forall k, 0 <= k -> n / 8 ^ k = n / 8 ^ (k + 1) * 8 + (48 + (n / 8 ^ k) mod 8 - 48)) as Hs.
  { intros k Hk. rewrite Z.pow_add_r, <- Z.div_div by lia. change (8 ^ 1) with 8. pose proof (Z.div_mod (n / 8 ^ k) 8 ltac:(lia)). lia. }
  assert (n / 8 ^ (10 + 1) = 0) as H0 by (apply Z.div_small; cbn; lia).
  unfold octval, oc. cbn [map fold_left].
  pose proof (Hs 10 ltac:(lia)) as A10. pose proof (Hs 9 ltac:(lia)) as A9. pose proof (Hs 8 ltac:(lia)) as A8. pose proof (Hs 7 ltac:(lia)) as A7. pose proof (Hs 6 ltac:(lia)) as A6.
  pose proof (Hs 5 ltac:(lia)) as A5. pose proof (Hs 4 ltac:(lia)) as A4. pose proof (Hs 3 ltac:(lia)) as A3. pose proof (Hs 2 ltac:(lia)) as A2. pose proof (Hs 1 ltac:(lia)) as A1. pose proof (Hs 0 ltac:(lia)) as A0.
  assert (n / 8 ^ 0 = n) as E by (rewrite Z.pow_0_r; apply Z.div_1_r).
  change (9 + 1) with 10 in A9. change (8 + 1) with 9 in A8. change (7 + 1) with 8 in A7. change (6 + 1) with 7 in A6. change (5 + 1) with 6 in A5. change (4 + 1) with 5 in A4. change (3 + 1) with 4 in A3. change (2 + 1) with 3 in A2. change (1 + 1) with 2 in A1. change (0 + 1) with 1 in A0.
  set (m10 := (n / 8 ^ 10) mod 8) in *. set (m9 := (n / 8 ^ 9) mod 8) in *. set (m8 := (n / 8 ^ 8) mod 8) in *. set (m7 := (n / 8 ^ 7) mod 8) in *. set (m6 := (n / 8 ^ 6) mod 8) in *. set (m5 := (n / 8 ^ 5) mod 8) in *. set (m4 := (n / 8 ^ 4) mod 8) in *. set (m3 := (n / 8 ^ 3) mod 8) in *. set (m2 := (n / 8 ^ 2) mod 8) in *. set (m1 := (n / 8 ^ 1) mod 8) in *. set (m0 := (n / 8 ^ 0) mod 8) in *. clear Hm Hs. set (d10 := n / 8 ^ 10) in *. set (d9 := n / 8 ^ 9) in *. set (d8 := n / 8 ^ 8) in *. set (d7 := n / 8 ^ 7) in *. set (d6 := n / 8 ^ 6) in *. set (d5 := n / 8 ^ 5) in *. set (d4 := n / 8 ^ 4) in *. set (d3 := n / 8 ^ 3) in *. set (d2 := n / 8 ^ 2) in *. set (d1 := n / 8 ^ 1) in *. set (d0 := n / 8 ^ 0) in *. clearbody m0 m1 m2 m3 m4 m5 m6 m7 m8 m9 m10. lia.
Qed.
Lemma tar_h_ok name size mtime ty : (length name <= 100)%nat -> Forall (fun c => c <> 0) name -> 0 <= size <= INT32_MAX -> 0 <= mtime <= INT32_MAX ->
  tar_hdr name size mtime ty (tar_h name size mtime ty).
Proof.
  intros Hl Hn Hs Hm. exists (name ++ repeat 0 (100 - length name)), [48;48;48;48;54;52;52;0], [48;48;48;48;48;48;48;0], [48;48;48;48;48;48;48;0], (oc size ++ [0]), (oc mtime ++ [0]), (repeat 32 8), (repeat 0 99 ++ [0]), (repeat 0 255).
  split; [reflexivity|]. split; [rewrite zlen_app, zlen_repeat; unfold zlen; lia|]. do 8 (split; [reflexivity|]).
  split; [exists (100 - length name)%nat; split; [reflexivity|exact Hn]|]. split; [apply oc_ok; exact Hs|]. split; [apply oc_ok; exact Hm|]. split; [exact Hs|]. split; [exact Hm|].
  split; [exists 48, [48;48;48;54;52;52]; split; [reflexivity|lia]|]. split; [exists [48;48;48;48;48;48;48]; reflexivity|]. split; [exists [48;48;48;48;48;48;48]; reflexivity|]. exists (repeat 0 99); reflexivity.
Qed.
(** "./" , "./a", a directory "d/", and a file with a GNU long name of 101 bytes *)
Definition lname : list Z := repeat 120 101.
Definition tar_sample (k : nat) : list Z :=
  tar_h [46;47] 0 5 53 ++
  tar_h [46;47;97] 3 1234567890 48 ++ pad512 [1;2;3] 509 ++
  tar_h [100;47] 0 6 53 ++ pad512 [] 0 ++
  tar_h longlink_name 102 0 76 ++ pad512 (lname ++ [0]) 410 ++ tar_h (repeat 120 100) 2 7 0 ++ pad512 [8;9] 510 ++
  repeat 0 (512 * k).
Definition tar_sample_members : list member :=
  [mkMember (mkInfo [97] 3 1234567890 2) [1;2;3]; mkMember (mkInfo [100] 0 6 1) []; mkMember (mkInfo (lname ++ [0]) 2 7 2) [8;9]].
Ltac tfa := repeat (apply Forall_cons; [lia|]); apply Forall_nil.
Ltac tblk k := exists (repeat 0 k); split; [reflexivity|]; split; [rewrite zlen_repeat; lia|reflexivity].
Example C24_case k : tar_archive 2147483647 k (tar_sample k) tar_sample_members.
Proof.
  unfold tar_sample, tar_sample_members. apply (tar_dot _ _ 5 53); [apply tar_h_ok; [cbn; lia|tfa|unfold INT32_MAX; lia..]|].
  apply (tar_file _ _ [46;47;97] 1234567890 48 (tar_h [46;47;97] 3 1234567890 48) [1;2;3] (pad512 [1;2;3] 509)); [apply tar_h_ok; [cbn; lia|tfa|unfold INT32_MAX; change (zlen [1;2;3]) with 3; lia..]|discriminate..|tblk 509%nat|].
  apply (tar_file _ _ [100;47] 6 53 (tar_h [100;47] 0 6 53) [] (pad512 [] 0)); [apply tar_h_ok; [cbn; lia|tfa|unfold INT32_MAX; change (@zlen Z []) with 0; lia..]|discriminate..|tblk 0%nat|].
  apply (tar_long _ _ (lname ++ [0]) 0 76 (tar_h longlink_name 102 0 76) (pad512 (lname ++ [0]) 410) (repeat 120 100) 7 0 (tar_h (repeat 120 100) 2 7 0) [8;9] (pad512 [8;9] 510)).
  - apply tar_h_ok; [cbn; lia|unfold longlink_name; tfa|unfold INT32_MAX; change (zlen (lname ++ [0])) with 102; lia..].
  - discriminate.
  - change (zlen (lname ++ [0])) with 102. lia.
  - tblk 410%nat.
  - apply tar_h_ok; [rewrite repeat_length; lia|apply Forall_forall; intros x Hx; apply repeat_spec in Hx; lia|unfold INT32_MAX; change (zlen [8;9]) with 2; lia..].
  - tblk 510%nat.
  - constructor.
Qed.
Example C24_case_run : lists_end (fun st => st = Eof) (tar_provider ss_ops 6000) INT32_MAX tar_sample_members (tar_new (mkSS (tar_sample 3) (zlen (tar_sample 3)) 0 Ok)).
Proof.
  assert (forall fin1 fin2 : status -> Prop, (forall s, fin1 s -> fin2 s) -> forall ms (a : tar _), lists_end fin1 (tar_provider ss_ops 6000) INT32_MAX ms a -> lists_end fin2 (tar_provider ss_ops 6000) INT32_MAX ms a) as Hmono.
  { intros f1 f2 Hf ms. induction ms as [|m ms IH]; intros a; cbn [lists_end].
    - intros (st & E & H). eauto.
    - intros (st & E & Hs & H). exists st. split; [exact E|]. split; [exact Hs|]. intros h Hh. destruct (H h Hh) as (st2 & obs & E2 & A2 & L2). eauto 6. }
  eapply Hmono; [|eapply (C24_tar_lists_members_partial _ ss_ops (tar_sample 3) INT32_MAX _ view0 [] (tar_sample 3) 3 tar_sample_members)].
  - intros s (_ & H). apply H. lia.
  - apply ss_conforms. vm_compute. discriminate.
  - unfold INT32_MAX; lia.
  - reflexivity.
  - reflexivity.
  - apply C24_case.
  - lia.
  - apply Nat.ltb_lt. vm_compute. reflexivity.
Qed.
(** an archive with the two final blocks of zeros POSIX asks for ends in Error, not Eof, on a stream
    that reports Eof together with its last bytes *)
Theorem C24_two_zero_blocks_refuted : exists bytes ms, tar_archive INT32_MAX 2 bytes ms /\
  exists st, iterate (tar_provider ss_ops 6000) [[]; []; []; []] (tar_new (mkSS bytes (zlen bytes) 0 Ok)) = Ret (st, map (fun m => (m_info m, [])) ms) /\ t_st st = Error.
Proof.
  exists (tar_sample 2), tar_sample_members. split; [apply C24_case|]. eexists; split; [vm_compute; reflexivity|]. vm_compute. reflexivity.
Qed.
(** a long name gets its terminating NUL appended: the member "xxx..x" (101 times) is announced as "xxx..x\0" *)
Theorem C24_long_name_refuted : exists st i1 i2 i3, iterate (tar_provider ss_ops 6000) [[]; []; []; []] (tar_new (mkSS (tar_sample 3) (zlen (tar_sample 3)) 0 Ok)) = Ret (st, [(i1, []); (i2, []); (i3, [])]) /\
  t_st st = Eof /\ i_name i3 = lname ++ [0] /\ i_name i3 <> lname.
Proof.
  do 4 eexists; split; [vm_compute; reflexivity|]. split; [vm_compute; reflexivity|]. split; [vm_compute; reflexivity|]. intros E. apply (f_equal (@length Z)) in E. vm_compute in E. discriminate E.
Qed.
(** a long link target (type K) is mistaken for the name of the entry: the symbolic link "s" is announced under the name of its target *)
Definition tar_klink : list Z := tar_h longlink_name 102 0 75 ++ pad512 (lname ++ [0]) 410 ++ tar_h [115] 0 7 50 ++ repeat 0 (512 * 3).
Theorem C24_long_link_target_refuted : exists st i, iterate (tar_provider ss_ops 6000) [[]; []] (tar_new (mkSS tar_klink (zlen tar_klink) 0 Ok)) = Ret (st, [(i, [])]) /\ i_name i = lname ++ [0].
Proof. do 2 eexists; split; vm_compute; reflexivity. Qed.
