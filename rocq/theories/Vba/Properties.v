(** Properties C58-C60: decompression of VBA streams.  Statements only; the vocabulary is in
    [Vba/Spec.v]. *)
From Coq Require Import List NArith ZArith Bool.
From Verif Require Import Lib.Res Lib.Bytes Common.Spec Vba.Model Vba.Spec Vba.PropertyLemmas.
Import ListNotations.
Local Open Scope N_scope.

(** ** C58: well-formed containers *)
Theorem C58_decompresses_every_container : forall w d, container w d -> lenN w <= 4194272 -> Decompress (lenN w) w = Ok (Some d).
Proof. exact C58_ok. Qed.
Print Assumptions C58_decompresses_every_container.

Theorem C58_every_data_has_a_container : forall d, container (stored_as_literals d) d.
Proof. exact C58_literals. Qed.
Print Assumptions C58_every_data_has_a_container.

Theorem C58_round_trip : forall d, lenN d <= 3700000 -> Decompress (lenN (stored_as_literals d)) (stored_as_literals d) = Ok (Some d).
Proof. exact C58_trip. Qed.
Print Assumptions C58_round_trip.

Example C58_example : container ovba_max (repeatN x61 73) /\ Decompress 7 ovba_max = Ok (Some (repeatN x61 73)) /\
  Decompress (lenN ovba_sample) ovba_sample = Ok (Some ovba_text).
Proof. exact C58_ex. Qed.

(** ** C59: chunks that are not compressed *)
Theorem C59_raw_chunk_at_the_end : forall w d r e, container w d -> raw_chunk r e -> lenN (w ++ r) <= 4194272 -> Decompress (lenN (w ++ r)) (w ++ r) = UB.
Proof. exact C59_last. Qed.
Print Assumptions C59_raw_chunk_at_the_end.

Theorem C59_raw_chunk_short : forall w d n data, container w d -> n <= 4095 -> lenN data <= n + 1 ->
  let f := w ++ to_le 2 (n + 4096 * 3) ++ data in lenN f <= 4194272 -> Decompress (lenN f) f = UB.
Proof. exact C59_short. Qed.
Print Assumptions C59_raw_chunk_short.

Theorem C59_raw_chunk_takes_its_position : forall w d n data, container w d -> n <= 4095 -> lenN data = lenN w + n + 3 ->
  let f := w ++ to_le 2 (n + 4096 * 3) ++ data in lenN f <= 4194272 -> Decompress (lenN f) f = Ok (Some (d ++ data)).
Proof. exact C59_position. Qed.
Print Assumptions C59_raw_chunk_takes_its_position.

Theorem C59_raw_chunk_refuted : exists w d r e, container w d /\ raw_chunk r e /\ lenN (w ++ r) <= 4194272 /\
  Decompress (lenN (w ++ r)) (w ++ r) <> Ok (Some (d ++ e)).
Proof. exact C59_refuted. Qed.
Print Assumptions C59_raw_chunk_refuted.

Example C59_example : Decompress 7 [x01; x00; x30; x61; x62; x63; x64] = Ok (Some [x61; x62; x63; x64]) /\
  Decompress 4 [x01; x00; x30; x61] = UB.
Proof. exact C59_ex. Qed.

(** ** C60: memory *)
Theorem C60_memory_safe_partial : forall len buf, 1 <= len <= 4194272 -> 2 * len + 2 <= lenN buf -> exists r, Decompress len buf = Ok r.
Proof. exact C60_safe. Qed.
Print Assumptions C60_memory_safe_partial.

Theorem C60_stray_byte : forall w d b, container w d -> lenN w < 4194272 -> Decompress (lenN (w ++ [b])) (w ++ [b]) = UB.
Proof. exact C60_stray. Qed.
Print Assumptions C60_stray_byte.

Theorem C60_exact_memory_refuted : exists w, Decompress (lenN w) w = UB /\ 1 <= lenN w <= 4194272.
Proof. exact C60_refuted. Qed.
Print Assumptions C60_exact_memory_refuted.

Theorem C60_overflow_of_the_result : forall rest, Decompress 4194305 ([x01; xff; xbf; x02; x61; xff; x0f] ++ rest) = UB.
Proof. exact C60_overflow. Qed.
Print Assumptions C60_overflow_of_the_result.

Theorem C60_overflow_refuted : exists len buf, 1 <= len /\ 2 * len + 2 <= lenN buf /\ Decompress len buf = UB.
Proof. exact C60_overflow_ref. Qed.
Print Assumptions C60_overflow_refuted.

Theorem C60_no_room : forall k b buf, b2n b = 1 -> Decompress (k * 4194304) (b :: buf) = Throw BadAlloc.
Proof. exact C60_zero. Qed.
Print Assumptions C60_no_room.

Theorem C60_no_bytes : forall len, Decompress len [] = UB.
Proof. exact C60_nothing. Qed.
Print Assumptions C60_no_bytes.

Theorem C60_other_signature : forall len b buf, b <> x01 -> Decompress len (b :: buf) = Ok None.
Proof. exact C60_other. Qed.
Print Assumptions C60_other_signature.

Theorem C60_foreign_chunk : forall w d lo hi rest, container w d -> (b2n hi / 16) mod 8 <> 3 ->
  let f := w ++ lo :: hi :: rest in lenN f <= 4194272 -> Decompress (lenN f) f = Ok None.
Proof. exact C60_foreign. Qed.
Print Assumptions C60_foreign_chunk.

Example C60_example : 1 <= 3 <= 4194272 /\ Decompress 3 [x01; xff; xbf; x00; x00; x00; x00; x00] = Ok (Some []) /\
  Decompress 9 [x01; x03; xb0; x02; x61; x45; x00; x00; x00] = Ok None.
Proof. exact C60_ex. Qed.
