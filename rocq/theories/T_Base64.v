(** C13, C14: base64.  Specification: B64Spec.v. *)
From Verif Require Import Base StreamSpec P_Stream M_StringStream P_StringStream M_Buffered BufferedSpec P_Buffered M_Base64 B64Spec P_Base64 P_Base64b.

(** decode inverts the standard encoding *)
Theorem C13_decode_encode : forall x, Forall byte x -> x <> [] -> b64_decode (b64encode x) = Ret x.
Proof.
  intros x HB HN. destruct (encode_wf x HB) as (W & HBe & _).
  assert (b64encode x <> []) as Hne by (destruct x as [|? [|? [|? ?]]]; [congruence|discriminate|discriminate|discriminate]).
  destruct (b64_decode_ok _ HBe Hne) as (r & E & H1 & _). rewrite E, (H1 W), decoded_encode by exact HB. reflexivity.
Qed.
(** for every non-empty text decode returns, without touching memory outside of it, the
    decoding if the text is well formed and the empty string otherwise *)
Theorem C13_decode_total : forall l, Forall byte l -> l <> [] -> exists r, b64_decode l = Ret r /\
  (well_formed l -> r = b64decoded l) /\ (~ well_formed l -> r = []).
Proof. exact b64_decode_ok. Qed.
Example C13_case : b64_decode (b64encode [1;2;255;0;128]) = Ret [1;2;255;0;128] /\
  b64encode [77;97;110] = [84;87;70;117] /\ b64_decode [84;87;70;117;10] = Ret [] /\ b64_decode [84;87;61;117] = Ret [] /\ well_formed [84;81;61;61].
Proof.
  repeat (split; [vm_compute; reflexivity|]). exists [84;81], [61;61]. split; [reflexivity|]. split; [|tauto].
  repeat constructor; eexists; reflexivity.
Qed.
(** decode of the empty string reads in front of the buffer *)
Theorem C13_empty_refuted : b64_decode [] = UB.
Proof. reflexivity. Qed.

(** The stream: over every parent stream that keeps the contract (so for every chunking
    of the encoded data) the Base64InputStream is a stream that keeps the
    contract (so for every way of reading it) with the decoded data as its content.
    [fuel] is the unrolling bound of the loop in fillBuffer: no bound beyond the input length is needed. *)
Theorem C14_stream : forall (P : Type) (par : ops P Z) (enc : list Z) (fails : Prop) lim p v fuel,
  Conforms par enc fails lim p v -> 1 <= lim -> Forall byte enc -> zlen enc < Z.of_nat fuel ->
  Conforms (bs_ops (b64_src par fuel)) (b64decoded (skipn (Z.to_nat (v_pos v)) enc)) fails BUF_LIM (bs_new (b64_new p)) view0.
Proof.
  intros P par enc fails lim p v fuel HC Hl HB Hf.
  set (content := b64decoded (skipn (Z.to_nat (v_pos v)) enc)).
  eapply (bs_conforms _ content fails (q_SR enc (Conforms par enc fails lim) fuel content) (q_SE (Conforms par enc fails lim))).
  - pose proof (conforms_sim par enc fails lim) as HS. apply (b64_SrcOK par enc fails _ (sim_view _ _ _ _ _ HS)); [|exact HB].
    intros p1 v1 Hp1. apply (sim_read par enc fails lim _ _ _ _ _ HS Hp1). cbn. unfold INT32_MAX, INT32_MIN. lia.
  - unfold bs_init_ok, bs_new; cbn [bs_buf bs_fin bs_src bs_pos bs_st bs_size buf0 b_off b_avail].
    change (b_size (@buf0 Z)) with 0. unfold BUF_LIM. repeat split; try lia; try (right; left; reflexivity).
    + apply zlen_nonneg.
    + cbn; lia.
    + cbn; lia.
    + exists content. split; [reflexivity|]. unfold alive; cbn [b64_new q_in q_win q_todo q_bits q_cc].
      exists v, []. split; [exact HC|]. split; [constructor|]. split; [constructor|]. split; [cbn; lia|]. split; [apply b64decoded_dec|].
      split; [unfold rest; cbn [app]; rewrite skipn_length; unfold zlen in Hf; lia|]. left. repeat split.
Qed.
(** the decoded data of a standard encoding with anything else interspersed is the original *)
Theorem C14_ignored_characters : forall x enc, Forall byte x -> filter relevantb enc = b64encode x -> b64decoded enc = x.
Proof.
  intros x enc HB HF. rewrite <- filter_decoded. 
  replace (filter relevant enc) with (filter relevantb enc).
  - rewrite HF. apply decoded_encode. exact HB.
  - apply filter_ext. intros c. unfold relevantb, relevant, alphab. destruct (b64val c); reflexivity.
Qed.
(** stream and one-shot decoding agree on well formed texts *)
Theorem C14_agrees_with_decode : forall l r, Forall byte l -> l <> [] -> well_formed l -> b64_decode l = Ret r -> r = b64decoded l.
Proof. intros l r HB HN W E. destruct (b64_decode_ok l HB HN) as (r' & E' & H & _). rewrite E in E'. injection E' as <-. exact (H W). Qed.
(** an unpadded incomplete group at the end is dropped *)
Theorem C14_unpadded_dropped_refuted : b64decoded (filter (fun c => negb (c =? pad)) (b64encode [1;2;3;4;5])) = [1;2;3].
Proof. vm_compute; reflexivity. Qed.
Example C14_case : exists x, run (bs_ops (b64_src ss_ops 30%nat)) (bs_new (b64_new (mkSS (b64encode [1;2;3;4;250]) 8 0 Ok)))
    [Read 1 1; Read 2 2; Reset 2; Read 9 0; Read 1 1]
  = Ret (x, [mkObs 1 [1] 1 (-1) Ok; mkObs 2 [2;3] 3 (-1) Ok; mkObs 2 [] 2 (-1) Ok; mkObs 3 [3;4;250] 5 5 Eof; mkObs (-1) [] 5 5 Eof]).
Proof. eexists; vm_compute; reflexivity. Qed.
