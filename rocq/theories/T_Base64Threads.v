(** C57: base64 in several threads. *)
From Verif Require Import Base StreamSpec M_StringStream M_Base64 B64Spec P_Base64 P_Base64b T_Base64 M_Base64Threads P_Base64Threads.

(** After one text was decoded or one stream was made ([first]), any number of threads can decode
    texts and read streams at the same time: for every order of their steps [sched] no two of them access a variable in conflict,
    each finds what it would find alone, and each is done after a number of its own steps that does not depend on the others. *)
Theorem C57_after_first_use_partial : forall first n m r,
  trun (mem0, [job_prog first]) (repeat 0%nat n) = (m, [Done r]) ->
  r = job_alone first /\
  forall jobs, exists steps : nat -> nat, forall sched m' ps, trun (m, map job_prog jobs) sched = (m', ps) ->
    ~ racing ps /\
    forall i j, nth_error jobs i = Some j -> exists p, nth_error ps i = Some p /\
      (forall r, p = Done r -> r = job_alone j) /\
      ((steps i <= count_occ Nat.eq_dec sched i)%nat -> p = Done (job_alone j)).
Proof.
  intros first n m r E. rewrite trun_alone in E. injection E as Em Er. destruct (alone_go first) as (n0 & H). destruct (H n) as (_ & Ha).
  destruct (Ha m r) as (-> & ->); [rewrite <- Em, <- Er; destruct (Nat.iter _ _ _); reflexivity|]. split; [reflexivity|].
  intros jobs. destruct (way_jobs jobs) as (ns & HW). exists ns. intros sched m' ps Et.
  destruct (way_run _ sched ns _ HW) as (ps' & E' & L & HW'). rewrite Et in E'. injection E' as -> <-.
  split; [exact (way_no_race _ _ _ HW')|]. intros i j Hj. destruct (nth_error ps i) as [p|] eqn:Ep.
  - exists p. split; [reflexivity|]. pose proof (HW' i p Ep) as Hv. cbn beta in Hv. rewrite Hj in Hv. split.
    + intros r ->. exact (evals_done _ _ _ Hv).
    + intros Hc. replace (ns i - _)%nat with 0%nat in Hv by lia. exact (evals_0 _ _ Hv).
  - apply nth_error_None in Ep. rewrite L, map_length in Ep. assert (i < length jobs)%nat by (apply nth_error_Some; congruence). lia.
Qed.
(** the first use comes to its end *)
Theorem C57_first_use_ends : forall first, exists n m, trun (mem0, [job_prog first]) (repeat 0%nat n) = (m, [Done (job_alone first)]).
Proof. intros first. destruct (alone_go first) as (n & H). exists n, ready. rewrite trun_alone. rewrite (proj1 (H n)) by lia. reflexivity. Qed.
(** what a thread finds that decodes the encoding of [x] *)
Theorem C57_texts : forall x, Forall byte x -> x <> [] -> job_alone (JText (b64encode x)) = Ret (inl x).
Proof. intros x HB HN. cbn [job_alone]. rewrite C13_decode_encode by assumption. reflexivity. Qed.

(** "TWFu": [77;97;110] *)
Definition two_threads : list (prog answer) := map job_prog [JText [84;87;70;117]; JText [66;66;66;66]].
Example C57_case : job_alone (JText [84;87;70;117]) = Ret (inl [77;97;110]) /\ job_alone (JText [66;66;66;66]) = Ret (inl [4;16;65]) /\
  trun (mem0, [job_prog (JText [84;81;61;61])]) (repeat 0%nat 400) = (ready, [Done (Ret (inl [77]))]) /\
  trun (ready, two_threads) (concat (repeat [1;0;0;1;1;0] 20)%nat) = (ready, [Done (Ret (inl [77;97;110])); Done (Ret (inl [4;16;65]))]).
Proof. split; [vm_compute; reflexivity|]. split; [vm_compute; reflexivity|]. split; vm_compute; reflexivity. Qed.
(** Without a first use before, the flag is set before the tables are filled.  The second thread decodes the valid text "TWFu" to nothing ... *)
Theorem C57_first_use_refuted : nth_error (snd (trun (mem0, map job_prog [JText [84;87;70;117]; JText [84;87;70;117]]) (repeat 0 10 ++ repeat 1 100)%nat)) 1 =
  Some (Done (Ret (inl []))).
Proof. vm_compute. reflexivity. Qed.
(** ... or to wrong bytes, [0;0;0] instead of [4;16;65]; *)
Theorem C57_wrong_bytes_refuted : nth_error (snd (trun (mem0, two_threads) (repeat 0 197 ++ repeat 1 100)%nat)) 1 = Some (Done (Ret (inl [0;0;0]))).
Proof. vm_compute. reflexivity. Qed.
(** if both threads find the flag unset, even a thread that has filled the tables itself can fail, because the other one clears them again; *)
Theorem C57_cleared_again_refuted : nth_error (snd (trun (mem0, map job_prog [JText [84;87;70;117]; JText [84;87;70;117]]) (1 :: repeat 0 322 ++ repeat 1 100 ++ repeat 0 100)%nat)) 0 =
  Some (Done (Ret (inl []))).
Proof. vm_compute. reflexivity. Qed.
(** and the accesses are a data race already at the first step. *)
Theorem C57_race_refuted : racing (snd (trun (mem0, two_threads) [0%nat])).
Proof.
  exists 0%nat, 1%nat, (snd (pstep mem0 (job_prog (JText [84;87;70;117])))), (job_prog (JText [66;66;66;66])), LInit, true, false.
  split; [discriminate|]. split; [reflexivity|]. split; [reflexivity|]. split; [reflexivity|]. split; [reflexivity|left; reflexivity].
Qed.
