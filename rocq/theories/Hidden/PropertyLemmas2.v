(** Lemmas behind the properties of colours. *)
From Coq Require Import List NArith ZArith Bool Lia Strings.String Strings.Byte ZifyBool ZifyNat ZifyN.
From Verif Require Import Lib.Res Lib.Bytes Lib.BytesFacts Lib.Text Lib.NumSpec Common.Spec Hidden.Statements Hidden.Colour Hidden.ColourProofs.
Import ListNotations.
Local Open Scope N_scope.

Lemma C137_value : forall d max off r g b v, off + 4 <= 2 ^ 32 -> window d off 4 [r; g; b; v] -> colour_Parse d max off = Ok (mkColour r g b v 4).
Proof. exact parse_value. Qed.
Lemma C137_outcomes : forall d max off, off < 2 ^ 32 ->
  (colour_Parse d max off = UB <-> exists k, k < 4 /\ lenN d <= (off + k) mod 2 ^ 32) /\
  (colour_Parse d max off = UB \/ exists c, colour_Parse d max off = Ok c).
Proof. exact parse_outcomes. Qed.
Lemma C137_unsafe : exists d max off, max = lenN d /\ off < max /\ colour_Parse d max off = UB.
Proof. exists [x01; x02; x03], 3, 0. vm_compute. auto. Qed.
Lemma C137_text : forall c, exists r1 r2 g1 g2 b1 b2 v1 v2, colour_ToText c = [x23; r1; r2; g1; g2; b1; b2; v1; v2] /\
  Forall (fun d => 48 <= b2n d <= 57 \/ 65 <= b2n d <= 70) [r1; r2; g1; g2; b1; b2; v1; v2] /\
  hex_num [r1; r2] = Some (b2n (c_red c)) /\ hex_num [g1; g2] = Some (b2n (c_green c)) /\ hex_num [b1; b2] = Some (b2n (c_blue c)) /\ hex_num [v1; v2] = Some (b2n (c_reserved c)).
Proof. exact text_value. Qed.
Lemma C137_injective : forall c c', colour_ToText c = colour_ToText c' ->
  c_red c = c_red c' /\ c_green c = c_green c' /\ c_blue c = c_blue c' /\ c_reserved c = c_reserved c'.
Proof. exact text_determines. Qed.
Lemma C137_cells : forall c, cells x2c (colour_ToCsv c) [dec (b2n (c_red c)); dec (b2n (c_green c)); dec (b2n (c_blue c)); dec (b2n (c_reserved c))].
Proof. exact csv_cells. Qed.
(** test/oless/excel/structures/LongRGB_test.hpp:9-24 *)
Lemma C137_tests : exists c, colour_Parse [x0a; x0b; x0c; x0d] 4 0 = Ok c /\ c_bytesRead c = 4 /\ b2n (c_red c) = 0x0A /\ b2n (c_green c) = 0x0B /\ b2n (c_blue c) = 0x0C /\
  b2n (c_reserved c) = 0x0D /\ colour_ToText c = B "#0A0B0C0D".
Proof. eexists. split; [vm_compute; reflexivity|]. vm_compute. auto 10. Qed.
Lemma C137_ex : window [xff; x01; x02; x03; x00; xff] 1 4 [x01; x02; x03; x00] /\
  (exists c, colour_Parse [xff; x01; x02; x03; x00; xff] 6 1 = Ok c /\ colour_ToCsv c = B "1,2,3,0" /\ colour_ToText c = B "#01020300").
Proof.
  split; [split; [reflexivity|]; exists [xff], [xff]; split; reflexivity|]. eexists. split; [vm_compute; reflexivity|]. vm_compute. auto.
Qed.
