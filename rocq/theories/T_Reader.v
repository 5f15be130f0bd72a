(** C42: directory listings of ArchiveReader; C43: openStream; C44: stat, isArchive and canHandle.
    The files do not change while the program runs; see ReaderSpec.v for what else is assumed about them. *)
From Verif Require Import Base StreamSpec ArchiveSpec M_Ar CacheSpec M_Cache P_Cache M_Listing ListingSpec P_Listing M_Reader ReaderSpec P_Reader2 P_Reader3 P_Reader4 P_Reader5 P_Reader6 P_Reader7.

(** C42: whatever else a program does with the reader (other listers of the same archive or not, stat, ...), the
    lister that dirEntries(url) gave returns no name twice, only entries of that directory, and by the time
    nextEntry has returned false exactly all of them; afterwards nothing. *)
Theorem C42_listers : forall fs N os r vs, files_ok fs -> room fs N -> rrun fs N reader0 os = Ret (r, vs) ->
  let evs := combine os vs in length vs = length os /\
  forall url k, In (RDir url, VLister k) evs ->
    NoDup (map i_name (returned k evs)) /\
    (exists all, dir_listing fs url all /\ incl (returned k evs) all) /\
    (ended k evs -> dir_listing fs url (returned k evs)).
Proof.
  intros fs N os r vs (FS & PT) (N0 & BIG) E evs. destruct (rrun_inv fs FS N BIG N0 os [] reader0 r vs (inv0 fs) PT E) as (L & (R & D & U & _) & _). split; [exact L|].
  intros url k I. cbn [app] in *. fold evs in D, U. destruct (U url k I) as (d & H & Ed). destruct (D k d H) as (fin & A & B). destruct (dl_sound fs FS _ _ _ _ (proj1 R) A) as (S1 & S2 & S3). rewrite Ed in S2, S3.
  split; [exact S1|]. split.
  - destruct (file_dec fs FS url) as [(u & f & s & FO)|NF].
    + destruct (tfind (full f s) (dir_path (below u url))) as [x|] eqn:F.
      * exists (convert x). split; [eapply convert_complete; eassumption|]. intros i Ii. specialize (S2 _ _ _ FO i Ii).
        destruct (convert_complete fs url u f s x FO F) as [(u' & f' & s' & FO' & _ & CI)|(NF & _)]; [|exfalso; exact (NF _ _ _ FO)].
        destruct (root_unique fs FS _ _ _ _ _ _ _ FO FO') as (-> & -> & ->). apply CI. exact S2.
      * pose proof (complete_none (f_info f) (phys f) s _ F) as CN. exists []. split; [left; exists u, f, s; split; assumption|]. intros i Ii. apply (proj2 CN). exact (S2 _ _ _ FO i Ii).
    + exists []. split; [right; split; [exact NF|reflexivity]|]. rewrite (S3 NF). intros i [].
  - intros EN. apply B in EN. subst fin. rewrite <- Ed. eapply dl_complete. exact A.
Qed.
(** A program that asks each new lister for its first entry before it does anything else never crashes or hangs. *)
Theorem C42_no_crash_partial : forall fs N os, files_ok fs -> room fs N -> prompt 0 os -> exists r vs, rrun fs N reader0 os = Ret (r, vs).
Proof.
  intros fs N os (FS & PT) (N0 & BIG) P. apply (rrun_prompt fs FS N BIG N0 (length os) os [] reader0 (le_n _) (inv0 fs) PT); [intros d []|exact P].
Qed.

(** C44: in every run, stat says what it has to say, canHandle(url) is true exactly if there is an archive on the
    way to url. *)
Theorem C44_stat : forall fs N os r vs url o, files_ok fs -> room fs N -> rrun fs N reader0 os = Ret (r, vs) ->
  In (RStat url, VInfo o) (combine os vs) -> stat_answer fs url o.
Proof.
  intros fs N os r vs url o (FS & PT) (N0 & BIG) E I. destruct (rrun_inv fs FS N BIG N0 os [] reader0 r vs (inv0 fs) PT E) as (_ & _ & A). exact (A _ _ I).
Qed.
Theorem C44_canHandle : forall fs N os r vs url b, files_ok fs -> room fs N -> rrun fs N reader0 os = Ret (r, vs) ->
  In (RCanHandle url, VBool b) (combine os vs) -> (b = true <-> exists u f e es, file_of fs url u f (Arch e es)).
Proof.
  intros fs N os r vs url b (FS & PT) (N0 & BIG) E I. destruct (rrun_inv fs FS N BIG N0 os [] reader0 r vs (inv0 fs) PT E) as (_ & _ & A). destruct (A _ _ I) as (r1 & R1 & E1).
  destruct (canHandle_ok fs FS N N0 r1 url PT R1) as (b' & E2 & H). assert (b' = b) by congruence. subst b'. exact H.
Qed.
(** isArchive(url) is true for every archive that is a file, false for everything that is not a file or directory.
    Missing: that it is false for other files and for directories (it is true for them, see below), and that it
    is true for archives in archives (it is false). *)
Theorem C44_isArchive_partial : forall fs N os r vs url b, files_ok fs -> room fs N -> rrun fs N reader0 os = Ret (r, vs) ->
  In (RIsArchive url, VBool b) (combine os vs) ->
  ((exists f e es, fs url = Some f /\ f_stream f = Some (Arch e es)) -> b = true) /\ (b = true -> exists f, fs url = Some f).
Proof.
  intros fs N os r vs url b (FS & PT) (N0 & BIG) E I. destruct (rrun_inv fs FS N BIG N0 os [] reader0 r vs (inv0 fs) PT E) as (_ & _ & A). destruct (A _ _ I) as (r1 & R1 & E1).
  destruct (isArchive_ok fs FS N N0 r1 url R1) as [E2|(f & F & T)].
  - split.
    + intros (f & e & es & F & S). rewrite F, S in E2. rewrite orb_true_r in E2. congruence.
    + intros ->. destruct (fs url) as [f|]; [eauto|]. congruence.
  - pose proof (PT _ _ F). lia.
Qed.

(** C43: openStream of a file gives that file; of a url that goes through no file, nothing; of the path of a member
    of an archive, that member, if no name of a file of the archive begins with the name of another one. *)
Theorem C43_file : forall fs url f s, fs url = Some f -> f_stream f = Some s -> openStream fs url = Ret (Some (Physical s)).
Proof. intros fs url f s A B. unfold openStream, open. rewrite A, B. reflexivity. Qed.
Theorem C43_nothing : forall fs url, fs_ok fs -> (forall u f s, ~ file_of fs url u f s) -> openStream fs url = Ret None.
Proof. intros fs url FS H. exact (open_none fs FS url H). Qed.
Theorem C43_member_partial : forall fs u f s rest e, fs_ok fs -> fs u = Some f -> f_stream f = Some s -> well_named s ->
  member_at s rest e -> openStream fs (u ++ 47 :: rest) = Ret (Some (Member e)).
Proof. intros fs u f s rest e FS. exact (open_member_ok fs FS u f s rest e). Qed.
(** and it gives nothing else, if whenever the path begins with the name of a file, the name ends where a part
    of the path ends *)
Theorem C43_only_members_partial : forall fs u f s rest, fs_ok fs -> fs u = Some f -> f_stream f = Some s -> exact_path s rest ->
  exists o, openStream fs (u ++ 47 :: rest) = Ret o /\ forall x, o = Some x -> exists e, x = Member e /\ member_at s rest e.
Proof.
  intros fs u f s rest FS A B X. destruct (open_total fs (u ++ 47 :: rest)) as (o & E). exists o. split; [exact E|]. intros x ->. exact (open_sound_ok fs FS u f s rest x A B X E).
Qed.

(** ** cases *)
(** "a" is an archive with "d/x", the archive "b" with "y", and "c"; "t" is a text file and "e" a directory *)
Definition ex_s : stream := Arch (Entry (mkInfo [100;47;120] 3 7 2) 3 Plain)
  [Entry (mkInfo [98] 9 7 2) 9 (Arch (Entry (mkInfo [121] 4 8 2) 4 Plain) []); Entry (mkInfo [99] 5 7 2) 5 Plain].
Definition ex_fs (mt : Z) (u : list Z) : option file :=
  if list_eqb u [97] then Some (mkFile (mkInfo [97] 20 mt 2) (Some ex_s))
  else if list_eqb u [116] then Some (mkFile (mkInfo [116] 4 6 2) (Some Plain))
  else if list_eqb u [101] then Some (mkFile (mkInfo [101] (-1) 6 1) None) else None.
Lemma ex_ok mt : files_ok (ex_fs mt).
Proof.
  split.
  - split; [reflexivity|]. intros u f s. unfold ex_fs. destruct (list_eqb_spec u [97]) as [->|N1]; [|destruct (list_eqb_spec u [116]) as [->|N2]; [|destruct (list_eqb_spec u [101]) as [->|N3]; [|discriminate]]].
    + intros E. assert (f = mkFile (mkInfo [97] 20 mt 2) (Some ex_s)) as -> by congruence. cbn [f_stream f_info]. intros E2. assert (s = ex_s) as -> by congruence. split; [reflexivity|]. split; [cbn; lia|]. split; [|reflexivity].
      intros a e b Es. destruct a as [|x [|y [|z a]]]; [| | |exfalso; apply (f_equal (@length _)) in Es; cbn in Es; rewrite app_length in Es; cbn in Es; lia]; cbn in Es; injection Es; intros; subst; reflexivity.
    + intros E. assert (f = mkFile (mkInfo [116] 4 6 2) (Some Plain)) as -> by congruence. cbn [f_stream f_info]. intros E2. assert (s = Plain) as -> by congruence. split; [reflexivity|]. split; [cbn; lia|]. split; [|reflexivity].
      intros a e b Es. destruct a; discriminate.
    + intros E. assert (f = mkFile (mkInfo [101] (-1) 6 1) None) as -> by congruence. discriminate.
  - intros u f. unfold ex_fs. destruct (list_eqb u [97]); [intros E; assert (f = mkFile (mkInfo [97] 20 mt 2) (Some ex_s)) as -> by congruence; cbn; lia|].
    destruct (list_eqb u [116]); [intros E; assert (f = mkFile (mkInfo [116] 4 6 2) (Some Plain)) as -> by congruence; cbn; lia|].
    destruct (list_eqb u [101]); [intros E; assert (f = mkFile (mkInfo [101] (-1) 6 1) None) as -> by congruence; cbn; lia|discriminate].
Qed.
Lemma ex_room mt : room (ex_fs mt) 12.
Proof.
  split; [lia|]. intros u f s. unfold ex_fs. destruct (list_eqb u [97]); [intros E; assert (f = mkFile (mkInfo [97] 20 mt 2) (Some ex_s)) as -> by congruence; intros E2; assert (s = ex_s) as -> by (cbn in E2; congruence); cbn; lia|].
  destruct (list_eqb u [116]); [intros E; assert (f = mkFile (mkInfo [116] 4 6 2) (Some Plain)) as -> by congruence; intros E2; assert (s = Plain) as -> by (cbn in E2; congruence); cbn; lia|].
  destruct (list_eqb u [101]); [intros E; assert (f = mkFile (mkInfo [101] (-1) 6 1) None) as -> by congruence; discriminate|discriminate].
Qed.
(** Two listers of the same archive and one of "a/b", interleaved with stat. *)
Definition ex_os : list rop := [RDir [97]; RNext 0; RDir [97;47;98]; RNext 1; RNext 0; RStat [97;47;100;47;120]; RNext 0; RNext 1; RNext 0; RNext 0; RDir [97]; RNext 2; RCanHandle [97;47;122]; RIsArchive [97]; RStat [113]].
Theorem C42_case : prompt 0 ex_os /\ exists r vs, rrun (ex_fs 5) 12 reader0 ex_os = Ret (r, vs) /\
  let evs := combine ex_os vs in
  In (RDir [97], VLister 0) evs /\ ended 0 evs /\ map i_name (returned 0 evs) = [[100];[98];[99]] /\
  In (RDir [97;47;98], VLister 1) evs /\ ended 1 evs /\ map i_name (returned 1 evs) = [[121]] /\
  In (RStat [97;47;100;47;120], VInfo (Some (mkInfo [120] 3 7 2))) evs /\ In (RCanHandle [97;47;122], VBool true) evs /\ In (RIsArchive [97], VBool true) evs.
Proof.
  split; [cbn; repeat (split; [lia|]); exact I|].
  destruct (rrun (ex_fs 5) 12 reader0 ex_os) as [(r & vs)| | |] eqn:E; [|vm_compute in E; discriminate..]. exists r, vs. split; [reflexivity|].
  assert (vs = snd (match rrun (ex_fs 5) 12 reader0 ex_os with Ret x => x | _ => (reader0, []) end)) as -> by (rewrite E; reflexivity). clear E.
  vm_compute. repeat (split; [tauto || (repeat (first [left; reflexivity|right])) || reflexivity|]). repeat (first [left; reflexivity|right]).
Qed.
(** A lister that has not been asked yet when a second dirEntries moves the finished listing to the cache: its
    first nextEntry dereferences a null pointer (root). *)
Theorem C42_unstarted_refuted : files_ok (ex_fs 5) /\ room (ex_fs 5) 12 /\
  rrun (ex_fs 5) 12 reader0 [RDir [97]; RDir [97]; RNext 0; RNext 0; RNext 0; RNext 0; RDir [97]; RNext 1] = UB /\
  exists x, rrun (ex_fs 5) 12 reader0 [RDir [97]; RDir [97]; RNext 0; RNext 0; RNext 0; RNext 0; RNext 1; RDir [97]; RNext 1] = Ret x.
Proof.
  split; [apply ex_ok|]. split; [apply ex_room|]. split; [vm_compute; reflexivity|].
  destruct (rrun _ _ _ _) as [x| | |] eqn:E; [eauto|vm_compute in E; discriminate..].
Qed.
(** A file that has been modified after its listing went to the cache: localStat erases the wrong key and deletes
    the tree that the cache still points to; the next dirEntries uses it. (archivereader.cpp:341-347) Here the
    file is "t/a": its key is the url, its name is "a". *)
Definition mod_fs (mt : Z) (u : list Z) : option file :=
  if list_eqb u [116;47;97] then Some (mkFile (mkInfo [97] 20 mt 2) (Some ex_s)) else None.
Theorem C42_modified_refuted : exists r vs r' v,
  rrun (mod_fs 5) 12 reader0 [RDir [116;47;97]; RNext 0; RNext 0; RNext 0; RNext 0; RDir [116;47;97]; RNext 1] = Ret (r, vs) /\
  rrun (mod_fs 6) 12 r [RIsArchive [116;47;97]] = Ret (r', v) /\ rrun (mod_fs 6) 12 r' [RDir [116;47;97]] = UB.
Proof.
  destruct (rrun (mod_fs 5) 12 reader0 [RDir [116;47;97]; RNext 0; RNext 0; RNext 0; RNext 0; RDir [116;47;97]; RNext 1]) as [(r & vs)| | |] eqn:E; [|vm_compute in E; discriminate..].
  exists r, vs. assert (r = fst (match rrun (mod_fs 5) 12 reader0 [RDir [116;47;97]; RNext 0; RNext 0; RNext 0; RNext 0; RDir [116;47;97]; RNext 1] with Ret x => x | _ => (reader0, []) end)) as -> by (rewrite E; reflexivity). clear E.
  vm_compute. eexists _, _. split; [reflexivity|]. split; reflexivity.
Qed.
(** isArchive is true for a text file and for a directory, false for an archive in an archive. *)
Theorem C44_isArchive_refuted : exists r, rrun (ex_fs 5) 12 reader0 [RIsArchive [116]; RIsArchive [101]; RIsArchive [97;47;98]] =
  Ret (r, [VBool true; VBool true; VBool false]).
Proof. eexists. vm_compute. reflexivity. Qed.
(** The members of ex_s have different beginnings; "a/b/y" is opened inside the inner archive. *)
Lemma ex_named : well_named ex_s.
Proof.
  assert (forall c, plain_name [c] \/ c = 0 \/ c = 47) as P1.
  { intros c. destruct (Z.eq_dec c 0) as [->|]; [auto|]. destruct (Z.eq_dec c 47) as [->|]; [auto|]. left. split; [intros [E|[]]; congruence|]. intros [|x [|? ?]] E; cbn in E; congruence. }
  assert (plain_name [100;47;120]) as P2.
  { split; [intros [E|[E|[E|[]]]]; discriminate|]. intros [|x [|y [|z [|? a]]]] E; cbn in E; try discriminate. }
  assert (plain_name [98] /\ plain_name [99] /\ plain_name [121]) as (P3 & P4 & P5) by (split; [destruct (P1 98) as [H|[H|H]]|split; [destruct (P1 99) as [H|[H|H]]|destruct (P1 121) as [H|[H|H]]]]; try discriminate; exact H).
  intros l L. unfold ex_s in L. inversion L as [? ? E1|? ? x l' I L']; subst.
  - split.
    + intros x [<-|[<-|[<-|[]]]] _; assumption.
    + intros a x b y c E _ _. destruct a as [|? [|? [|? a]]]; cbn in E; injection E; intros; subst.
      * destruct b as [|? [|? b]]; cbn in *; match goal with H : _ :: _ = _ :: _ |- _ => injection H; intros; subst | _ => idtac end; try (split; intros (r & C); discriminate).
        all: try (match goal with H : _ = _ |- _ => apply (f_equal (@length _)) in H; cbn in H; rewrite ?app_length in H; cbn in H; lia end).
      * destruct b as [|? b]; cbn in *; match goal with H : _ :: _ = _ :: _ |- _ => injection H; intros; subst | _ => idtac end; try (split; intros (r & C); discriminate).
        all: try (match goal with H : _ = _ |- _ => apply (f_equal (@length _)) in H; cbn in H; rewrite ?app_length in H; cbn in H; lia end).
      * destruct b; discriminate.
      * destruct a; discriminate.
  - destruct I as [<-|[<-|[<-|[]]]]; cbn [e_stream] in L'; try (inversion L'; fail). inversion L' as [? ? E2|? ? x2 l2 I2 L2]; subst.
    + split; [intros x [<-|[]] _; assumption|]. intros a x b y c E _ _. destruct a as [|? a]; cbn in E; injection E; intros; subst; [destruct b; discriminate|destruct a; discriminate].
    + destruct I2 as [<-|[]]. inversion L2.
Qed.
Theorem C43_case : well_named ex_s /\ member_at ex_s [98;47;121] (Entry (mkInfo [121] 4 8 2) 4 Plain) /\ exact_path ex_s [98;47;121] /\
  openStream (ex_fs 5) [97;47;98;47;121] = Ret (Some (Member (Entry (mkInfo [121] 4 8 2) 4 Plain))) /\
  openStream (ex_fs 5) [97;47;122] = Ret None.
Proof.
  split; [exact ex_named|]. split; [apply (member_in _ _ (Entry (mkInfo [98] 9 7 2) 9 (Arch (Entry (mkInfo [121] 4 8 2) 4 Plain) [])) [121] _); [right; left; reflexivity|reflexivity|]; apply (member_here _ _ (Entry (mkInfo [121] 4 8 2) 4 Plain)); [left; reflexivity|reflexivity]|].
  split; [|split; vm_compute; reflexivity].
  destruct (ex_named _ (level_here _ _)) as (W & _). constructor. intros x I T. split; [apply W; assumption|]. intros r E. destruct I as [<-|[<-|[<-|[]]]]; cbn in E; try discriminate.
  injection E as <-. right. exists [121]. split; [reflexivity|]. constructor. intros x [<-|[]] _. split.
  - assert (level ex_s [Entry (mkInfo [121] 4 8 2) 4 Plain]) as LV by (eapply level_in; [right; left; reflexivity|apply level_here]).
    destruct (ex_named _ LV) as (W2 & _). apply W2; [left; reflexivity|reflexivity].
  - intros r E. cbn in E. injection E as <-. left. reflexivity.
Qed.
(** A url that only begins with the name of a member opens that member; so does the name of a later member. *)
Definition pre_s : stream := Arch (Entry (mkInfo [102] 3 7 2) 3 Plain) [Entry (mkInfo [102;111] 5 7 2) 5 Plain].
Definition pre_fs (u : list Z) : option file := if list_eqb u [97] then Some (mkFile (mkInfo [97] 20 1 2) (Some pre_s)) else None.
Theorem C43_prefix_refuted :
  (forall e, ~ member_at pre_s [102;120] e) /\ openStream pre_fs [97;47;102;120] = Ret (Some (Member (Entry (mkInfo [102] 3 7 2) 3 Plain))) /\
  member_at pre_s [102;111] (Entry (mkInfo [102;111] 5 7 2) 5 Plain) /\ openStream pre_fs [97;47;102;111] = Ret (Some (Member (Entry (mkInfo [102] 3 7 2) 3 Plain))).
Proof.
  split.
  - intros e M. inversion M as [? ? x I T E1 E2|? ? x rest y I T M' E1 E2]; subst; destruct I as [<-|[<-|[]]]; discriminate.
  - split; [vm_compute; reflexivity|]. split; [|vm_compute; reflexivity]. apply (member_here _ _ (Entry (mkInfo [102;111] 5 7 2) 5 Plain)); [right; left; reflexivity|reflexivity].
Qed.
