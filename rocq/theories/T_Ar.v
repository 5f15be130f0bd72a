(** C22: ArInputStream lists the members of every ar archive. *)
From Verif Require Import Base StreamSpec P_Stream M_StringStream P_StringStream M_Sub ArchiveSpec M_Ar ArSpec P_Archive P_Ar.

(** Over any input that follows the stream contract, standing at an even position in front of the
    archive: nextEntry() announces each regular member (symbol table and name table are not
    announced) with its name, size and time, each entry stream has the content of that member under
    every history of documented calls, the iteration continues correctly whatever part of the
    entries was read, and ends with null and Eof. *)
Theorem C22_ar_lists_members : forall (P : Type) (par : ops P Z) full lim p v pre bytes ms,
  Conforms par full False lim p v -> 60 <= lim ->
  full = pre ++ bytes -> zlen pre = v_pos v -> v_pos v mod 2 = 0 ->
  ar_archive lim bytes ms ->
  exists a, ar_new par p = Ret a /\ forall fuel, (length bytes < fuel)%nat -> lists (ar_provider par fuel) lim ms a.
Proof.
  intros P par full lim p v pre bytes ms HC Hlim Hfull Hpre Hev (rest & Hb & HM). unfold ar_new. pose proof (zlen_nonneg rest).
  set (magic := [33;60;97;114;99;104;62;10]) in *. assert (zlen magic = 8) as Hm by reflexivity.
  destruct (read_exact par full lim p v 8 HC) as (p' & E & _ & HC'); [lia|unfold INT32_MAX; lia|rewrite Hfull, Hb, !zlen_app; lia|].
  rewrite E; cbn [bind]. rewrite <- Hpre in *. assert (slice full (zlen pre) 8 = magic) as -> by (rewrite Hfull, Hb, <- Hm; apply slice_mid; reflexivity).
  change (negb (8 =? 8) || negb (ar_checkHeader magic)) with false.
  eexists; split; [reflexivity|]. intros fuel Hf.
  eapply (ar_lists par full lim Hlim fuel ms [] rest (pre ++ magic) []); [exact HM|rewrite Hfull, Hb, <- app_assoc; reflexivity| | |reflexivity|rewrite Hb, app_length in Hf; cbn in Hf; lia].
  - rewrite zlen_nil, zlen_app, Hm, <- Zplus_mod_idemp_l, Hev. reflexivity.
  - split; [reflexivity|]. cbn [a_cur]. eexists; split; [exact HC'|]. cbn [v_pos]. rewrite zlen_app. lia.
Qed.

(** a GNU archive with a symbol table, a name table and two members of odd and even size *)
Definition sp n := repeat 32 n.
Definition ar_h (name mtime size : list Z) : list Z :=
  name ++ sp (16 - length name) ++ mtime ++ sp (12 - length mtime) ++ [48] ++ sp 5 ++ [48] ++ sp 5 ++ [54;52;52] ++ sp 5 ++ size ++ sp (10 - length size) ++ [96;10].
Definition ar_sample : list Z :=
  [33;60;97;114;99;104;62;10] ++
  ar_h [47] [48] [52] ++ [0;0;0;0] ++
  ar_h [47;47] [48] [50;49] ++ [97;95;108;111;110;103;95;102;105;108;101;95;110;97;109;101;46;99;47;10;10] ++ [10] ++
  ar_h [47;48] [57;57] [51] ++ [1;2;3] ++ [10] ++
  ar_h [98;46;111;47] [49;50;51;52] [50] ++ [7;8].
Definition ar_sample_members : list member :=
  [mkMember (mkInfo [97;95;108;111;110;103;95;102;105;108;101;95;110;97;109;101;46;99] 3 99 2) [1;2;3];
   mkMember (mkInfo [98;46;111] 2 1234 2) [7;8]].
Lemma hdr_case name mtime size m z : (length name <= 16)%nat -> (1 <= length mtime <= 11)%nat -> (1 <= length size <= 10)%nat ->
  Forall (fun c => 48 <= c <= 57) mtime -> Forall (fun c => 48 <= c <= 57) size -> decval mtime = m -> decval size = z ->
  0 <= m <= INT32_MAX -> 0 <= z <= INT32_MAX -> ar_hdr (name ++ sp (16 - length name)) m z (ar_h name mtime size).
Proof.
  intros H1 H2 H3 F1 F2 D1 D2 M Z. exists (mtime ++ sp (12 - length mtime)), ([48] ++ sp 5 ++ [48] ++ sp 5 ++ [54;52;52] ++ sp 5), (size ++ sp (10 - length size)).
  unfold ar_h, sp. split; [rewrite <- !app_assoc; reflexivity|]. rewrite !zlen_app, !zlen_repeat. unfold zlen. cbn [length].
  split; [lia|]. split; [lia|]. split; [reflexivity|]. split; [lia|]. split; [|split; [|split; assumption]].
  - exists mtime, (11 - length mtime)%nat. split; [split; [destruct mtime; [cbn in H2; lia|discriminate]|exact F1]|]. split; [exact D1|].
    replace (12 - length mtime)%nat with (S (11 - length mtime)) by lia. reflexivity.
  - exists size, (10 - length size)%nat. split; [split; [destruct size; [cbn in H3; lia|discriminate]|exact F2]|]. split; [exact D2|reflexivity].
Qed.
Ltac fa := repeat (apply Forall_cons; [lia|]); apply Forall_nil.
Ltac hdr := match goal with |- ar_hdr _ ?m ?z (ar_h ?a ?b ?c) => refine (hdr_case a b c m z _ _ _ _ _ _ _ _ _) end; [cbn; lia|cbn; lia|cbn; lia|fa|fa|reflexivity|reflexivity|unfold INT32_MAX; lia|unfold INT32_MAX, zlen; cbn; lia].
Example C22_case : ar_archive 2147483647 ar_sample ar_sample_members.
Proof.
  eexists; split; [reflexivity|].
  apply (ar_symbols _ [] (sp 14) 0 (ar_h [47] [48] [52]) [0;0;0;0] []); [hdr|reflexivity|].
  apply (ar_table _ [] (sp 14) 0 (ar_h [47;47] [48] [50;49]) [97;95;108;111;110;103;95;102;105;108;101;95;110;97;109;101;46;99;47;10;10] [10]); [hdr|discriminate|unfold zlen; cbn; lia|reflexivity|].
  apply (ar_longname _ _ [] [97;95;108;111;110;103;95;102;105;108;101;95;110;97;109;101;46;99] [10;10] (48 :: sp 14) 99 (ar_h [47;48] [57;57] [51]) [1;2;3] [10]); [hdr| |reflexivity|fa|unfold zlen, INT32_MAX; cbn; lia|reflexivity|].
  { exists [48], 13%nat. split; [split; [discriminate|fa]|]. split; reflexivity. }
  change (ar_h [98;46;111;47] [49;50;51;52] [50] ++ [7;8]) with (ar_h [98;46;111;47] [49;50;51;52] [50] ++ [7;8] ++ [] ++ []).
  apply (ar_file _ _ ([98;46;111;47] ++ sp 12) [98;46;111] 1234 (ar_h [98;46;111;47] [49;50;51;52] [50]) [7;8] []); [hdr| |reflexivity|constructor].
  split; [discriminate|]. split; [fa|]. exists (47 :: sp 12). split; [reflexivity|auto].
Qed.
(** the whole stack: the sample in a StringStream *)
Example C22_case_run : exists s, ss_new (Z.eqb 0) ar_sample (zlen ar_sample) = Ret s /\
  exists a, ar_new ss_ops s = Ret a /\ lists (ar_provider ss_ops 400) INT32_MAX ar_sample_members a.
Proof.
  eexists; split; [vm_compute; reflexivity|]. eexists; split; [vm_compute; reflexivity|].
  destruct (C22_ar_lists_members _ ss_ops ar_sample INT32_MAX (mkSS ar_sample (zlen ar_sample) 0 Ok) view0 [] ar_sample ar_sample_members) as (a & E & H).
  - apply ss_conforms. vm_compute. discriminate.
  - unfold INT32_MAX; lia.
  - reflexivity.
  - reflexivity.
  - reflexivity.
  - exact C22_case.
  - vm_compute in E. injection E as <-. apply H. apply Nat.ltb_lt. vm_compute. reflexivity.
Qed.
