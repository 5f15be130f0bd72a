(** C25: ZipInputStream lists the members of zip archives. *)
From Verif Require Import Base StreamSpec P_Stream M_StringStream P_StringStream M_Sub M_Buffered BufferedSpec M_Inflate InflateSpec M_Text TextSpec
  ArchiveSpec TarSpec M_Zip ZipSpec P_Entry P_Zip T_Inflate.

(** As C22, for zip archives of stored members, deflated members (with or without a signed data
    descriptor behind the data), and deflated members written in streaming mode (bit 3: sizes only in
    the descriptor; the announced size is -1). [cd] is the inflate library, [mktime] that of the C library.
    [gas] and [fuel] only bound loop unrolling in the model. *)
Theorem C25_zip_lists_members : forall (D P : Type) (cd : codec D) (f : format) (DI : D -> list Z -> list Z -> Prop)
    (par : ops P Z) mktime full lim p v pre bytes ms bufsize gas fuel,
  codec_ok f cd DI -> Conforms par full False lim p v -> o_status par p = Ok -> 65535 <= lim -> 1 <= bufsize <= BUF_LIM ->
  full = pre ++ bytes -> zlen pre = v_pos v -> zip_archive (dos2unixtime mktime) f bytes ms ->
  zlen full <= Z.of_nat gas -> (2 <= fuel)%nat -> Forall (fun m => (length (m_data m) < fuel)%nat) ms ->
  lists (zip_provider cd par mktime bufsize gas fuel) (Z.min lim BUF_LIM) ms (zip_new p).
Proof.
  intros D P cd f DI par mktime full lim p v pre bytes ms bufsize gas fuel Hcd HC Hok Hlim Hb Hfull Hpre HM Hg Hf Hms.
  apply (zip_lists cd f DI Hcd par full lim Hlim mktime bufsize gas fuel Hb Hg ms bytes [] pre); [exact HM|exact Hfull| |exact Hf|].
  - split; [reflexivity|]. cbn. split; [reflexivity|]. exists v. split; [|lia]. split; [exact HC|]. congruence.
  - eapply Forall_impl; [|exact Hms]. cbn. lia.
Qed.

(** a stored member "a" , a directory "d/", a deflated member "b", one with a descriptor, two streamed ones, and
    the central directory *)
Definition le16 (n : Z) : list Z := [n mod 256; n / 256].
Definition le32 (n : Z) : list Z := le16 (n mod 65536) ++ le16 (n / 65536).
Definition zip_h (flags method csize size : Z) (name extra : list Z) : list Z :=
  [80;75;3;4] ++ [20;0] ++ le16 flags ++ le16 method ++ [1;2;3;4] ++ [9;9;9;9] ++ le32 csize ++ le32 size ++ le16 (zlen name) ++ le16 (zlen extra) ++ name ++ extra.
Definition zip_sample : list Z :=
  zip_h 0 0 3 3 [97] [] ++ [1;2;3] ++
  zip_h 0 0 0 0 [100;47] [7;7] ++ [] ++
  zip_h 2 8 4 3 [98] [] ++ [3;11;12;13] ++ [] ++
  zip_h 2 8 2 1 [98;49] [] ++ [1;11] ++ ([80;75;7;8] ++ [0;0;0;0;2;0;0;0;1;0;0;0]) ++
  zip_h 8 8 0 0 [99] [] ++ [5;1;2;3;4;5] ++ ([80;75;7;8] ++ [0;0;0;0;6;0;0;0;5;0;0;0]) ++
  zip_h 8 8 0 0 [101] [] ++ [0] ++ [0;0;0;0;1;0;0;0;0;0;0;0] ++
  80 :: 75 :: 1 :: 2 :: repeat 0 64.
Definition zip_sample_members (t : Z) : list member :=
  [mkMember (mkInfo [97] 3 t 2) [1;2;3]; mkMember (mkInfo [100] 0 t 1) []; mkMember (mkInfo [98] 3 t 2) [11;12;13];
   mkMember (mkInfo [98;49] 1 t 2) [11]; mkMember (mkInfo [99] (-1) t 2) [1;2;3;4;5]; mkMember (mkInfo [101] (-1) t 2) []].
Lemma zip_h_ok flags method csize size name extra : le_value (le16 flags) = flags -> le_value (le16 method) = method -> le_value (le32 csize) = csize -> le_value (le32 size) = size ->
  le_value (le16 (zlen name)) = zlen name -> le_value (le16 (zlen extra)) = zlen extra -> zlen name <= 65535 -> zlen extra <= 65535 -> 0 <= csize <= INT32_MAX ->
  zip_local flags method (le_value [1;2;3;4]) csize size name (zip_h flags method csize size name extra).
Proof.
  intros. exists [20;0], (le16 flags), (le16 method), [1;2;3;4], [9;9;9;9], (le32 csize), (le32 size), (le16 (zlen name)), (le16 (zlen extra)), extra.
  split; [reflexivity|]. do 9 (split; [reflexivity|]). split; [assumption|]. split; [assumption|]. split; [reflexivity|]. do 6 (split; [assumption|]). assumption.
Qed.
Example C25_case unix : zip_archive unix toy_format zip_sample (zip_sample_members (unix 67305985)).
Proof.
  assert (HT : forall x, zlen x < 200 -> fmt toy_format (zlen x :: x) x) by (intros x Hx; exists (zlen x); split; [reflexivity|]; split; [reflexivity|lia]).
  assert (Hh : forall flags method csize size name extra, le_value (le16 flags) = flags -> le_value (le16 method) = method -> le_value (le32 csize) = csize -> le_value (le32 size) = size ->
    le_value (le16 (zlen name)) = zlen name -> le_value (le16 (zlen extra)) = zlen extra -> zlen name <= 65535 -> zlen extra <= 65535 -> 0 <= csize <= INT32_MAX ->
    zip_local flags method 67305985 csize size name (zip_h flags method csize size name extra)) by (intros; apply zip_h_ok; assumption).
  unfold zip_sample, zip_sample_members.
  apply (zip_stored _ _ 0 67305985 [97] (zip_h 0 0 3 3 [97] []) [1;2;3]); [apply Hh; reflexivity || (unfold zlen, INT32_MAX; cbn; lia)|reflexivity|discriminate|unfold zlen, INT32_MAX; cbn; lia|].
  apply (zip_stored _ _ 0 67305985 [100;47] (zip_h 0 0 0 0 [100;47] [7;7]) []); [apply Hh; reflexivity || (unfold zlen, INT32_MAX; cbn; lia)|reflexivity|discriminate|unfold zlen, INT32_MAX; cbn; lia|].
  apply (zip_deflated _ _ 2 67305985 [98] (zip_h 2 8 4 3 [98] []) [3;11;12;13] [11;12;13] []); [apply Hh; reflexivity || (unfold zlen, INT32_MAX; cbn; lia)|reflexivity|discriminate|unfold zlen, INT32_MAX; cbn; lia|apply (HT [11;12;13]); unfold zlen; cbn; lia|left; reflexivity|].
  apply (zip_deflated _ _ 2 67305985 [98;49] (zip_h 2 8 2 1 [98;49] []) [1;11] [11]); [apply Hh; reflexivity || (unfold zlen, INT32_MAX; cbn; lia)|reflexivity|discriminate|unfold zlen, INT32_MAX; cbn; lia|apply (HT [11]); unfold zlen; cbn; lia|right; eexists; split; [reflexivity|reflexivity]|].
  apply (zip_streamed _ _ 8 67305985 0 0 [99] (zip_h 8 8 0 0 [99] []) [5;1;2;3;4;5] [1;2;3;4;5]); [apply Hh; reflexivity || (unfold zlen, INT32_MAX; cbn; lia)|reflexivity|discriminate|unfold zlen, INT32_MAX; cbn; lia|apply (HT [1;2;3;4;5]); unfold zlen; cbn; lia|right; eexists; split; [reflexivity|reflexivity]|].
  apply (zip_streamed _ _ 8 67305985 0 0 [101] (zip_h 8 8 0 0 [101] []) [0] []); [apply Hh; reflexivity || (unfold zlen, INT32_MAX; cbn; lia)|reflexivity|discriminate|unfold zlen, INT32_MAX; cbn; lia|apply (HT []); unfold zlen; cbn; lia|left; split; [reflexivity|discriminate]|].
  apply zip_end; [lia|lia|congruence|congruence|rewrite zlen_repeat; lia].
Qed.
Definition mk0 (t : tm) : Z := 77.
Definition zip_ss (bytes : list Z) : zip toy (sstream Z) := zip_new (mkSS bytes (zlen bytes) 0 Ok).
Definition zp := zip_provider toy_codec (ss_ops (A := Z)) mk0 16 1000 1000.
Example C25_case_run : lists zp BUF_LIM (zip_sample_members 77) (zip_ss zip_sample).
Proof.
  change BUF_LIM with (Z.min INT32_MAX BUF_LIM). unfold zp, zip_ss.
  apply (C25_zip_lists_members _ _ toy_codec toy_format toy_DI ss_ops mk0 zip_sample INT32_MAX _ view0 [] zip_sample); [exact toy_ok|apply ss_conforms; vm_compute; discriminate|reflexivity|unfold INT32_MAX; lia|unfold BUF_LIM; lia|reflexivity|reflexivity|apply (C25_case (dos2unixtime mk0))|vm_compute; discriminate|lia|].
  repeat (apply Forall_cons; [cbn; lia|]). apply Forall_nil.
Qed.

(** The claim does not hold for every zip archive: an archive without members (22 bytes, only the end
    record) ends in Error, not Eof *)
Theorem C25_empty_archive_refuted : exists st, pv_next zp (zip_ss ([80;75;5;6] ++ repeat 0 18)) = Ret (st, None) /\ zi_st st = Error.
Proof. eexists; split; [vm_compute; reflexivity|reflexivity]. Qed.
(** a member compressed with another method (here 12, bzip2) is not rejected: its compressed bytes are passed off as
    the beginning of its data, and the next header is read from the wrong position (here: Error) *)
Theorem C25_other_method_refuted : exists st st2, pv_next zp (zip_ss (zip_h 0 12 2 4 [97] [] ++ [1;2] ++ zip_h 0 0 1 1 [98] [] ++ [5] ++ 80 :: 75 :: 1 :: 2 :: repeat 0 64)) = Ret (st, Some (mkInfo [97] 4 77 2)) /\
  (exists obs, pv_entry zp st [Read 4 4] = Ret (st2, obs) /\ map ob_data obs = [[1;2;80;75]]) /\
  exists st3, pv_next zp st2 = Ret (st3, None) /\ zi_st st3 = Error.
Proof. do 2 eexists; split; [vm_compute; reflexivity|]. split; [eexists; split; [vm_compute; reflexivity|vm_compute; reflexivity]|]. eexists; split; [vm_compute; reflexivity|reflexivity]. Qed.
