(** Proofs about colours. *)
From Coq Require Import List NArith ZArith Bool Lia Strings.String Strings.Byte ZifyBool ZifyNat ZifyN.
From Verif Require Import Lib.Res Lib.Bytes Lib.BytesFacts Lib.Text Lib.NumSpec Lib.NumFacts Common.Model Common.Spec Hidden.Statements Hidden.Proofs Hidden.Colour.
Import ListNotations.
Local Open Scope N_scope.

(** ** Reading *)
Lemma rdb_at d i b : nthN d i = Some b -> rdb d i = Ok b.
Proof. intros H. unfold rdb. rewrite H. reflexivity. Qed.
Lemma rdb_ub d i : rdb d i = UB <-> lenN d <= i.
Proof. unfold rdb. rewrite <- nthN_None. destruct (nthN d i); split; congruence. Qed.
Lemma rdb_cases d i : (exists b, rdb d i = Ok b /\ i < lenN d) \/ (rdb d i = UB /\ lenN d <= i).
Proof.
  destruct (N.lt_ge_cases i (lenN d)) as [L|L].
  - left. destruct (nthN_lt d i L) as (b & E). exists b. split; [apply rdb_at; exact E|exact L].
  - right. split; [apply rdb_ub; exact L|exact L].
Qed.
Theorem parse_value d max off r g b v : off + 4 <= 2 ^ 32 -> window d off 4 [r; g; b; v] -> colour_Parse d max off = Ok (mkColour r g b v 4).
Proof.
  intros L (_ & a & z & -> & <-). unfold colour_Parse. change (2 ^ 32) with 4294967296 in *.
  unfold u32. rewrite !(N.mod_small (lenN a + _) 4294967296) by lia.
  assert (A : forall i, nthN (a ++ [r; g; b; v] ++ z) (lenN a + i) = nthN ([r; g; b; v] ++ z) i) by (intros i; rewrite nthN_app2 by lia; f_equal; lia).
  rewrite <- (N.add_0_r (lenN a)) at 1.
  rewrite (rdb_at _ _ r) by (rewrite A; reflexivity). cbn [bind]. rewrite (rdb_at _ _ g) by (rewrite A; reflexivity). cbn [bind].
  rewrite (rdb_at _ _ b) by (rewrite A; reflexivity). cbn [bind]. rewrite (rdb_at _ _ v) by (rewrite A; reflexivity). cbn [bind].
  do 2 f_equal. destruct (N.eq_dec (lenN a + 4) 4294967296) as [E|E].
  - rewrite E. change (4294967296 mod 4294967296) with 0. rewrite N.add_0_l. replace (4294967296 - lenN a) with 4 by lia. reflexivity.
  - rewrite (N.mod_small (lenN a + 4)) by lia. replace (lenN a + 4 + (4294967296 - lenN a)) with (4 + 1 * 4294967296) by lia. rewrite N.mod_add by lia. reflexivity.
Qed.
Theorem parse_outcomes d max off : off < 2 ^ 32 ->
  (colour_Parse d max off = UB <-> exists k, k < 4 /\ lenN d <= (off + k) mod 2 ^ 32) /\
  (colour_Parse d max off = UB \/ exists c, colour_Parse d max off = Ok c).
Proof.
  intros L. unfold colour_Parse, u32. change (2 ^ 32) with 4294967296 in *.
  assert (E0 : (off + 0) mod 4294967296 = off) by (rewrite N.add_0_r; apply N.mod_small; exact L).
  destruct (rdb_cases d off) as [(r & -> & L0)|(-> & L0)]; cbn [bind]; [|split; [split; [|reflexivity]|left; reflexivity]; intros _; exists 0; rewrite E0; split; [lia|exact L0]].
  destruct (rdb_cases d ((off + 1) mod 4294967296)) as [(g & -> & L1)|(-> & L1)]; cbn [bind]; [|split; [split; [|reflexivity]|left; reflexivity]; intros _; exists 1; split; [lia|exact L1]].
  destruct (rdb_cases d ((off + 2) mod 4294967296)) as [(b & -> & L2)|(-> & L2)]; cbn [bind]; [|split; [split; [|reflexivity]|left; reflexivity]; intros _; exists 2; split; [lia|exact L2]].
  destruct (rdb_cases d ((off + 3) mod 4294967296)) as [(v & -> & L3)|(-> & L3)]; cbn [bind]; [|split; [split; [|reflexivity]|left; reflexivity]; intros _; exists 3; split; [lia|exact L3]].
  split; [|right; eexists; reflexivity]. split; [discriminate|]. intros (k & Lk & K). exfalso.
  assert (C : k = 0 \/ k = 1 \/ k = 2 \/ k = 3) by lia. destruct C as [->|[->|[->| ->]]]; lia.
Qed.

(** ** The text *)
Definition upper (c : byte) : bool := (48 <=? b2n c) && (b2n c <=? 57) || (65 <=? b2n c) && (b2n c <=? 70).
Lemma pair_of x : exists a b, pad0 2 (hex_up (b2n x)) = [a; b] /\ upper a = true /\ upper b = true /\ hex_num [a; b] = Some (b2n x).
Proof.
  assert (K : forall x, (match pad0 2 (hex_up (b2n x)) with [a; b] => upper a && upper b | _ => false end) = true) by (apply forall_bytes; vm_compute; reflexivity).
  specialize (K x). pose proof (hex_num_pad0_up 2 (b2n x)) as V. destruct (pad0 2 (hex_up (b2n x))) as [|a [|b [|]]]; try discriminate K.
  apply andb_true_iff in K. exists a, b. destruct K. auto.
Qed.
Theorem text_value c : exists r1 r2 g1 g2 b1 b2 v1 v2, colour_ToText c = [x23; r1; r2; g1; g2; b1; b2; v1; v2] /\
  Forall (fun d => 48 <= b2n d <= 57 \/ 65 <= b2n d <= 70) [r1; r2; g1; g2; b1; b2; v1; v2] /\
  hex_num [r1; r2] = Some (b2n (c_red c)) /\ hex_num [g1; g2] = Some (b2n (c_green c)) /\ hex_num [b1; b2] = Some (b2n (c_blue c)) /\ hex_num [v1; v2] = Some (b2n (c_reserved c)).
Proof.
  unfold colour_ToText.
  destruct (pair_of (c_red c)) as (r1 & r2 & -> & A1 & A2 & R). destruct (pair_of (c_green c)) as (g1 & g2 & -> & A3 & A4 & G).
  destruct (pair_of (c_blue c)) as (b1 & b2 & -> & A5 & A6 & C). destruct (pair_of (c_reserved c)) as (v1 & v2 & -> & A7 & A8 & V).
  exists r1, r2, g1, g2, b1, b2, v1, v2. split; [reflexivity|]. split; [|auto]. unfold upper in *. repeat apply Forall_cons; [lia..|constructor].
Qed.
Theorem text_determines c c' : colour_ToText c = colour_ToText c' ->
  c_red c = c_red c' /\ c_green c = c_green c' /\ c_blue c = c_blue c' /\ c_reserved c = c_reserved c'.
Proof.
  destruct (text_value c) as (r1 & r2 & g1 & g2 & b1 & b2 & v1 & v2 & -> & _ & R & G & C & V).
  destruct (text_value c') as (r1' & r2' & g1' & g2' & b1' & b2' & v1' & v2' & -> & _ & R' & G' & C' & V').
  intros [= <- <- <- <- <- <- <- <-]. repeat split; apply b2n_inj; congruence.
Qed.

(** ** The row *)
Theorem csv_cells c : cells x2c (colour_ToCsv c) [dec (b2n (c_red c)); dec (b2n (c_green c)); dec (b2n (c_blue c)); dec (b2n (c_reserved c))].
Proof.
  assert (D : forall n, ~ In x2c (dec n)) by (intros n; apply (comma_free_in (dec n)), dec_lit).
  unfold colour_ToCsv. repeat first [apply ce_more; [apply D|]|apply ce_last; apply D].
Qed.
