(** The lemmas behind [Vba/Properties.v]. *)
From Coq Require Import List NArith ZArith Bool Lia.
From Coq Require Import ZifyBool ZifyNat ZifyN.
From Verif Require Import Lib.Res Lib.Bytes Lib.BytesFacts Common.Spec Vba.Model Vba.Spec Vba.Proofs Vba.SafetyProofs Vba.ShapeProofs.
Import ListNotations.
Local Open Scope N_scope.

(** The example of [MS-OVBA] 3.2.2. *)
Definition ovba_sample : bytes :=
  [x01;x2f;xb0;x00;x23;x61;x61;x61;x62;x63;x64;x65;x82;x66;x00;x70;x61;x67;x68;x69;x6a;x01;x38;x08;x61;x6b;x6c;x00;x30;
   x6d;x6e;x6f;x70;x06;x71;x02;x70;x04;x10;x72;x73;x74;x75;x76;x10;x77;x78;x79;x7a;x00;x3c].
(** The text [#aaabcdefaaaaghijaaaaaklaaamnopqaaaaaaaaaaaarstuvwxyzaaa]. *)
Definition ovba_text : bytes :=
  [x23;x61;x61;x61;x62;x63;x64;x65;x66;x61;x61;x61;x61;x67;x68;x69;x6a;x61;x61;x61;x61;x61;x6b;x6c;x61;x61;x61;x6d;x6e;x6f;x70;x71;
   x61;x61;x61;x61;x61;x61;x61;x61;x61;x61;x61;x61;x72;x73;x74;x75;x76;x77;x78;x79;x7a;x61;x61;x61].
(** [MS-OVBA] 3.2.3: 73 times the letter a. *)
Definition ovba_max : bytes := [x01;x03;xb0;x02;x61;x45;x00].

Lemma C58_ok : forall w d, container w d -> lenN w <= 4194272 -> Decompress (lenN w) w = Ok (Some d).
Proof. exact decompress_ok. Qed.
Lemma C58_literals : forall d, container (stored_as_literals d) d.
Proof. exact literals_container. Qed.
Lemma C58_trip : forall d, lenN d <= 3700000 -> Decompress (lenN (stored_as_literals d)) (stored_as_literals d) = Ok (Some d).
Proof. exact literals_round_trip. Qed.
Lemma max_container : container ovba_max (repeatN x61 73).
Proof.
  exists [x03;xb0;x02;x61;x45;x00]. split; [reflexivity|].
  change [x03;xb0;x02;x61;x45;x00] with ([x03;xb0;x02;x61;x45;x00] ++ []). rewrite <- (app_nil_r (repeatN x61 73)).
  constructor; [|constructor]. exists [x02;x61;x45;x00]. split; [|split; [cbn; lia|split; [vm_compute; discriminate|reflexivity]]].
  apply groups_last with (ts := [Literal x61; Copy 1 72]). exists x02, [x61;x45;x00]. split; [reflexivity|].
  split; [|split; [cbn; lia|]].
  - change [x61;x45;x00] with ([x61] ++ [x45;x00] ++ []). apply tokens_cons with (d' := [x61]); [reflexivity|reflexivity|].
    apply tokens_cons with (d' := repeatN x61 73); [| |constructor].
    + exists 4. unfold offset_bits. change (lenN [x61]) with 1. change (2 ^ 4) with 16. change (2 ^ (16 - 4)) with 4096.
      split; [lia|]. split; [lia|]. split; [lia|reflexivity].
    + exists (repeatN x61 72). split; [reflexivity|]. split; [reflexivity|]. change (lenN [x61]) with 1.
      assert (A : forall j, j < 73 -> nthN (repeatN x61 73) j = Some x61).
      { intros j Hj. unfold repeatN. rewrite nthN_nth_error. rewrite nth_error_nth' with (d := x61) by (rewrite repeat_length; lia).
        rewrite nth_repeat. reflexivity. }
      intros i Hi. rewrite !A by lia. reflexivity.
  - intros i t H. destruct (N.eq_dec i 0) as [->|N0]; [injection H as <-; reflexivity|].
    destruct (N.eq_dec i 1) as [->|N1]; [injection H as <-; reflexivity|].
    apply nthN_Some_lt in H. change (lenN [Literal x61; Copy 1 72]) with 2 in H. lia.
Qed.
Lemma C58_ex : container ovba_max (repeatN x61 73) /\ Decompress 7 ovba_max = Ok (Some (repeatN x61 73)) /\
  Decompress (lenN ovba_sample) ovba_sample = Ok (Some ovba_text).
Proof. split; [exact max_container|]. split; vm_compute; reflexivity. Qed.

(** ** Chunks that are not compressed *)
Lemma C59_last : forall w d r e, container w d -> raw_chunk r e -> lenN (w ++ r) <= 4194272 -> Decompress (lenN (w ++ r)) (w ++ r) = UB.
Proof.
  intros w d r e C (Le & ->) L. apply (raw_over_read w d 4095); [exact C|lia| |exact L].
  rewrite lenN_app. unfold lenN at 2. unfold repeatN. rewrite repeat_length. lia.
Qed.
Lemma C59_short : forall w d n data, container w d -> n <= 4095 -> lenN data <= n + 1 ->
  let f := w ++ to_le 2 (n + 4096 * 3) ++ data in lenN f <= 4194272 -> Decompress (lenN f) f = UB.
Proof. intros w d n data C Hn Ld f L. exact (raw_over_read w d n data C Hn Ld L). Qed.
Lemma C59_position : forall w d n data, container w d -> n <= 4095 -> lenN data = lenN w + n + 3 ->
  let f := w ++ to_le 2 (n + 4096 * 3) ++ data in lenN f <= 4194272 -> Decompress (lenN f) f = Ok (Some (d ++ data)).
Proof. intros w d n data C Hn Ld f L. exact (raw_takes_position w d n data C Hn Ld L). Qed.
Lemma empty_container : container [x01] [].
Proof. exists []. split; [reflexivity|constructor]. Qed.
Lemma C59_refuted : exists w d r e, container w d /\ raw_chunk r e /\ lenN (w ++ r) <= 4194272 /\
  Decompress (lenN (w ++ r)) (w ++ r) <> Ok (Some (d ++ e)).
Proof.
  exists [x01], [], (to_le 2 (4095 + 4096 * 3) ++ repeatN x61 4096), (repeatN x61 4096).
  assert (R : raw_chunk (to_le 2 (4095 + 4096 * 3) ++ repeatN x61 4096) (repeatN x61 4096)).
  { assert (E : lenN (repeatN x61 4096) = 4096) by reflexivity. split; [rewrite E; lia|]. rewrite E. change (repeatN x00 (4096 - 4096)) with (@nil byte).
    rewrite app_nil_r. reflexivity. }
  assert (L : lenN ([x01] ++ to_le 2 (4095 + 4096 * 3) ++ repeatN x61 4096) <= 4194272) by (vm_compute; discriminate).
  split; [exact empty_container|]. split; [exact R|]. split; [exact L|].
  rewrite (C59_last [x01] [] _ _ empty_container R L). discriminate.
Qed.
Lemma C59_ex : Decompress 7 [x01; x00; x30; x61; x62; x63; x64] = Ok (Some [x61; x62; x63; x64]) /\
  Decompress 4 [x01; x00; x30; x61] = UB.
Proof. split; vm_compute; reflexivity. Qed.

(** ** Memory *)
Lemma C60_safe : forall len buf, 1 <= len <= 4194272 -> 2 * len + 2 <= lenN buf -> exists r, Decompress len buf = Ok r.
Proof. intros len buf [A B] C. exact (decompress_safe len buf A B C). Qed.
Lemma C60_stray : forall w d b, container w d -> lenN w < 4194272 -> Decompress (lenN (w ++ [b])) (w ++ [b]) = UB.
Proof. exact stray_byte. Qed.
Lemma C60_refuted : exists w, Decompress (lenN w) w = UB /\ 1 <= lenN w <= 4194272.
Proof. exists [x01; x00]. split; [vm_compute; reflexivity|]. cbn. lia. Qed.
Lemma C60_overflow : forall rest, Decompress 4194305 ([x01; xff; xbf; x02; x61; xff; x0f] ++ rest) = UB.
Proof. intros rest. apply (buffer_overflow 4194305 rest). reflexivity. Qed.
Lemma C60_overflow_ref : exists len buf, 1 <= len /\ 2 * len + 2 <= lenN buf /\ Decompress len buf = UB.
Proof.
  exists 4194305, ([x01; xff; xbf; x02; x61; xff; x0f] ++ repeatN x00 8388606). split; [lia|]. split; [|apply C60_overflow].
  rewrite lenN_app. unfold lenN at 2, repeatN. rewrite repeat_length. change (lenN [x01; xff; xbf; x02; x61; xff; x0f]) with 7. lia.
Qed.
Lemma C60_zero : forall k b buf, b2n b = 1 -> Decompress (k * 4194304) (b :: buf) = Throw BadAlloc.
Proof. intros k b buf H. apply empty_buffer. unfold rd. cbn [nthN]. change (0 =? 0) with true. cbn iota. rewrite H. reflexivity. Qed.
Lemma C60_nothing : forall len, Decompress len [] = UB.
Proof. exact no_stream. Qed.
Lemma C60_other : forall len b buf, b <> x01 -> Decompress len (b :: buf) = Ok None.
Proof. exact not_compressed. Qed.
Lemma C60_foreign : forall w d lo hi rest, container w d -> (b2n hi / 16) mod 8 <> 3 ->
  let f := w ++ lo :: hi :: rest in lenN f <= 4194272 -> Decompress (lenN f) f = Ok None.
Proof. intros w d lo hi rest C H f L. exact (foreign_header w d lo hi rest C L H). Qed.
Lemma C60_ex : 1 <= 3 <= 4194272 /\ Decompress 3 [x01; xff; xbf; x00; x00; x00; x00; x00] = Ok (Some []) /\
  Decompress 9 [x01; x03; xb0; x02; x61; x45; x00; x00; x00] = Ok None.
Proof. split; [lia|]. split; vm_compute; reflexivity. Qed.
