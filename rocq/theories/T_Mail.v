(** C32: decoding of mail headers. Specification: MailSpec.v. *)
From Verif Require Import Base B64Spec M_Base64 M_Mail MailSpec P_Mail.

(** the quoted printable decoder inverts every "Q" encoding, reading only its argument *)
Theorem C32_quoted_printable : forall x t, q_encodes x t -> decodeQuotedPrintable t (zlen t) = Ret x.
Proof. intros x t H. rewrite qp_ok. f_equal. apply qpt_encodes. exact H. Qed.
(** every byte string has such an encoding: all bytes as hexadecimal escapes *)
Theorem C32_quoted_printable_covers : forall x, Forall byte x -> exists t, q_encodes x t /\ noq t.
Proof.
  assert (forall h, 0 <= h <= 15 -> exists c, hexdigit h c /\ c <> 63) as HD.
  { intros h Hh. destruct (Z.le_gt_cases h 9); [exists (48 + h)|exists (55 + h)]; (split; [|lia]); [left; lia|right; lia]. }
  induction x as [|c x IH]; intros HB; [exists []; split; [constructor|intros []]|].
  assert (byte c) as Hc by (inversion HB; assumption). destruct IH as (t & Ht & Hn); [inversion HB; assumption|]. unfold byte in Hc.
  pose proof (Z.div_mod c 16 ltac:(lia)). pose proof (Z.mod_pos_bound c 16 ltac:(lia)). pose proof (Z.div_pos c 16 ltac:(lia) ltac:(lia)). pose proof (Z.div_lt_upper_bound c 16 16 ltac:(lia) ltac:(lia)).
  destruct (HD (c / 16) ltac:(lia)) as (a & Ha & Na), (HD (c mod 16) ltac:(lia)) as (b & Hb & Nb).
  exists (61 :: a :: b :: t). split.
  - replace c with (16 * (c / 16) + c mod 16) by lia. apply q_hex; assumption.
  - intros [X|[X|[X|X]]]; [discriminate|congruence|congruence|exact (Hn X)].
Qed.
(** text without '=' and '_' is not changed *)
Theorem C32_quoted_printable_plain : forall t, ~ In 61 t -> ~ In 95 t -> decodeQuotedPrintable t (zlen t) = Ret t.
Proof.
  intros t H1 H2. apply C32_quoted_printable. induction t as [|c t IH]; [constructor|]. apply q_self; [intros ->; apply H1; left; reflexivity|intros ->; apply H2; left; reflexivity|].
  apply IH; [intros X; apply H1; right; exact X|intros X; apply H2; right; exact X].
Qed.
(** it returns for every text *)
Theorem C32_quoted_printable_total : forall t, exists x, decodeQuotedPrintable t (zlen t) = Ret x.
Proof. intros t. rewrite qp_ok. eexists; reflexivity. Qed.
Example C32_quoted_printable_case : q_encodes [99;97;102;195;169;32;33] [99;97;102;61;67;51;61;97;57;95;33] /\
  decodeQuotedPrintable [99;97;102;61;67;51;61;97;57;95;33] 11 = Ret [99;97;102;195;169;32;33] /\
  decodeQuotedPrintable [97;61;52] 3 = Ret [97;61;52].
Proof.
  split; [|split; vm_compute; reflexivity]. do 3 (apply q_self; [lia|lia|]).
  apply (q_hex _ 12 3); [right; lia|left; lia|]. apply (q_hex _ 10 9); [right; lia|left; lia|]. apply q_space. apply q_self; [lia|lia|]. constructor.
Qed.

(** The header decoder gives the text a header value stands for, whatever memory [after] follows the value and whatever was decoded
    before ([c]); iconv is any library whose conversions do not depend on earlier ones.
    Missing from the full claim: folded lines and white space between encoded words, for which it is false (below). *)
Theorem C32_header_partial : forall (C : Type) (iconv : C -> list Z -> list Z -> C * option (list Z)) (conv : list Z -> list Z -> list Z),
  (forall c enc x, x <> [] -> (match snd (iconv c enc x) with Some d => d | None => x end) = conv enc x) ->
  forall c value text after, header_text conv value text ->
  exists c', decodedHeaderValue iconv c (value ++ after) (zlen value) = Ret (c', text).
Proof.
  intros C iconv conv Hc c value text after H. unfold decodedHeaderValue.
  destruct (header_run iconv conv Hc (value ++ after) (zlen value) value text H [] [] after c [] (Z.to_nat (zlen value))) as (c' & p & d & E & HP & ED); [reflexivity|reflexivity|unfold zlen; lia|].
  change (zlen (@nil Z)) with 0 in E. change (0 + 0) with 0 in E. rewrite E. cbn [bind]. exists c'. rewrite ED. reflexivity.
Qed.
(** plain text stands for itself *)
Theorem C32_plain : forall conv value, (forall i, slice value i 2 <> [61;63]) -> (forall i, slice value i 2 <> [13;10]) -> header_text conv value value.
Proof.
  intros conv. induction value as [|c v IH]; intros H1 H2; [constructor|].
  assert (forall i, 0 <= i -> slice (c :: v) (i + 1) 2 = slice v i 2) as Sh.
  { intros i Hi. unfold slice. f_equal. replace (Z.to_nat (i + 1)) with (S (Z.to_nat i)) by lia. reflexivity. }
  assert (forall l, l <> [] -> (forall i, slice (c :: v) i 2 <> l) -> forall i, slice v i 2 <> l) as Tl.
  { intros l Hl H i. destruct (Z.le_gt_cases 0 i) as [Hi|Hi]; [rewrite <- Sh by lia; apply H|]. specialize (H 1). change 1 with (0 + 1) in H. rewrite Sh in H by lia. unfold slice in *. replace (Z.to_nat i) with (Z.to_nat 0) by lia. exact H. }
  apply ht_plain.
  - intros (r & E). apply (H1 0). rewrite E. reflexivity.
  - intros (w & r & E & _). apply (H2 0). rewrite E. reflexivity.
  - apply IH; apply Tl; try assumption; discriminate.
Qed.
(** "Re: =?utf-8?q?caf=C3=a9?= x" *)
Example C32_header_case : forall conv, header_text conv
    [82;101;58;32;61;63;117;84;102;45;56;63;113;63;99;97;102;61;67;51;61;97;57;63;61;32;120] [82;101;58;32;99;97;102;195;169;32;120] /\
  decodedHeaderValue (fun (c : unit) _ _ => (c, None)) tt [82;101;58;32;61;63;117;84;102;45;56;63;113;63;99;97;102;61;67;51;61;97;57;63;61;32;120] 27 = Ret (tt, [82;101;58;32;99;97;102;195;169;32;120]).
Proof.
  intros conv. split; [|vm_compute; reflexivity].
  do 4 (apply ht_plain; [intros (r & E); discriminate|intros (w & r & E & _); discriminate|]).
  apply (ht_word conv [117;84;102;45;56] 113 [99;97;102;61;67;51;61;97;57] [99;97;102;195;169] [32;120] [32;120]).
  - intros H. repeat (destruct H as [H|H]; [discriminate|]). destruct H.
  - discriminate.
  - apply enc_q; [right; reflexivity| | |discriminate].
    + do 3 (apply q_self; [lia|lia|]). apply (q_hex _ 12 3); [right; lia|left; lia|]. apply (q_hex _ 10 9); [right; lia|left; lia|]. constructor.
    + intros H. repeat (destruct H as [H|H]; [discriminate|]). destruct H.
  - reflexivity.
  - do 2 (apply ht_plain; [intros (r & E); discriminate|intros (w & r & E & _); discriminate|]). constructor.
Qed.
(** every value, however malformed, is decoded in finite time without touching memory outside of it and one byte behind it *)
Theorem C32_header_total : forall (C : Type) (iconv : C -> list Z -> list Z -> C * option (list Z)) c value b, Forall byte (value ++ [b]) ->
  exists r, decodedHeaderValue iconv c (value ++ [b]) (zlen value) = Ret r.
Proof.
  intros C iconv c value b HB. unfold decodedHeaderValue. pose proof (zlen_nonneg value).
  destruct (header_total iconv (value ++ [b]) (zlen value)) with (fuel := Z.to_nat (zlen value)) (c := c) (s := 0) (p := 0) (dec := @nil Z) as (c' & p & d & E & _); [rewrite zlen_app; change (zlen [b]) with 1; lia|exact HB|lia|lia|].
  rewrite E. cbn [bind]. eexists; reflexivity.
Qed.
(** that byte is read: "=?utf-8?q?a?" *)
Theorem C32_overread_refuted : exists value, decodedHeaderValue (fun (c : unit) _ _ => (c, None)) tt value (zlen value) = UB.
Proof. exists [61;63;117;116;102;45;56;63;113;63;97;63]. vm_compute. reflexivity. Qed.
(** and it may even end an encoded word *)
Theorem C32_overread_effect_refuted : exists value, decodedHeaderValue (fun (c : unit) _ _ => (c, None)) tt (value ++ [13]) (zlen value) = Ret (tt, value) /\
  decodedHeaderValue (fun (c : unit) _ _ => (c, None)) tt (value ++ [61]) (zlen value) = Ret (tt, [97]).
Proof. exists [61;63;117;116;102;45;56;63;113;63;97;63]. split; vm_compute; reflexivity. Qed.
(** unfolding drops a character of the text: "a\r\n bc" becomes "ac" *)
Theorem C32_folding_refuted : decodedHeaderValue (fun (c : unit) _ _ => (c, None)) tt [97;13;10;32;98;99] 6 = Ret (tt, [97;99]).
Proof. vm_compute. reflexivity. Qed.
(** white space between encoded words is kept, though RFC 2047 6.2 wants it dropped *)
Theorem C32_adjacent_words_refuted :
  decodedHeaderValue (fun (c : unit) _ _ => (c, None)) tt ([61;63;117;116;102;45;56;63;113;63;97;63;61] ++ [32] ++ [61;63;117;116;102;45;56;63;113;63;98;63;61]) 27 = Ret (tt, [97;32;98]).
Proof. vm_compute. reflexivity. Qed.
(** words with another encoding letter vanish: "x=?utf-8?z?abc?=y" *)
Theorem C32_unknown_method_refuted : decodedHeaderValue (fun (c : unit) _ _ => (c, None)) tt [120;61;63;117;116;102;45;56;63;122;63;97;98;99;63;61;121] 17 = Ret (tt, [120;121]).
Proof. vm_compute. reflexivity. Qed.
