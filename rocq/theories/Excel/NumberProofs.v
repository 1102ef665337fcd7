(** Numbers in binary floating point and their texts. *)
From Coq Require Import List NArith ZArith Bool Lia Strings.String Strings.Byte.
From Coq Require Import ZifyBool ZifyNat ZifyN.
From Verif Require Import Lib.Res Lib.Bytes Lib.BytesFacts Lib.Text Lib.NumFacts Excel.Number Excel.NumberSpec.
From Verif Require Propset.Spec Propset.Statements Propset.Output Propset.NumberProofs Lib.Bytes Magic.Spec.
Import ListNotations.
Local Open Scope N_scope.
Ltac Zify.zify_post_hook ::= Z.div_mod_to_equations.
Arguments N.pow : simpl never.
Arguments N.mul : simpl never.
Arguments N.add : simpl never.
Notation single := Propset.Spec.single.
Notation double_precision := Propset.Spec.double_precision.

Lemma high_bit bits k : bits < 2 ^ (k + 1) -> N.testbit bits k = (2 ^ k <=? bits).
Proof.
  intros H. rewrite N.testbit_eqb. rewrite N.add_1_r, N.pow_succ_r' in H.
  destruct (N.leb_spec (2 ^ k) bits).
  - assert (bits / 2 ^ k = 1) as ->; [|reflexivity]. symmetry. apply (N.div_unique _ _ 1 (bits - 2 ^ k)); lia.
  - rewrite N.div_small by assumption. reflexivity.
Qed.
Lemma decode_32 bits neg m e : bits < 2 ^ 32 -> decode32 bits = Finite neg m e ->
  single bits m e /\ neg = (2 ^ 31 <=? bits).
Proof.
  intros H. unfold decode32, decode. rewrite N.shiftr_div_pow2. change (8 + 23) with 31. rewrite (high_bit bits 31) by exact H.
  unfold single. set (ex := bits / 2 ^ 23 mod 2 ^ 8).
  assert (E : Propset.Spec.field bits 23 255 = ex) by reflexivity.
  assert (B : ex < 256) by (apply N.mod_lt; discriminate).
  change (2 ^ 8 - 1) with 255. destruct (N.eqb_spec ex 255) as [->|N5]; [destruct (_ =? 0); discriminate|].
  destruct (N.eqb_spec ex 0) as [E0|N0]; intros I; injection I as <- <- <-; (split; [|reflexivity]).
  - apply Propset.Spec.ieee_small. rewrite E. exact E0.
  - match goal with |- Propset.Spec.ieee _ _ _ _ _ ?z => replace z with (Z.of_N ex - 150)%Z by lia end.
    rewrite <- E. apply Propset.Spec.ieee_normal; rewrite E; lia.
Qed.
Lemma decode_64 bits neg m e : bits < 2 ^ 64 -> decode64 bits = Finite neg m e ->
  double_precision bits m e /\ neg = (2 ^ 63 <=? bits).
Proof.
  intros H. unfold decode64, decode. rewrite N.shiftr_div_pow2. change (11 + 52) with 63. rewrite (high_bit bits 63) by exact H.
  unfold double_precision. set (ex := bits / 2 ^ 52 mod 2 ^ 11).
  assert (E : Propset.Spec.field bits 52 2047 = ex) by reflexivity.
  assert (B : ex < 2048) by (apply N.mod_lt; discriminate).
  change (2 ^ 11 - 1) with 2047. destruct (N.eqb_spec ex 2047) as [->|N5]; [destruct (_ =? 0); discriminate|].
  destruct (N.eqb_spec ex 0) as [E0|N0]; intros I; injection I as <- <- <-; (split; [|reflexivity]).
  - apply Propset.Spec.ieee_small. rewrite E. exact E0.
  - match goal with |- Propset.Spec.ieee _ _ _ _ _ ?z => replace z with (Z.of_N ex - 1075)%Z by lia end.
    rewrite <- E. apply Propset.Spec.ieee_normal; rewrite E; lia.
Qed.
(** What is not finite *)
Lemma decode_64_special bits neg : decode64 bits = Inf neg \/ decode64 bits = NaN neg -> Propset.Spec.field bits 52 2047 = 2047.
Proof.
  unfold decode64, decode. rewrite N.shiftr_div_pow2. set (ex := bits / 2 ^ 52 mod 2 ^ 11).
  change (Propset.Spec.field bits 52 2047) with ex. change (2 ^ 11 - 1) with 2047.
  destruct (N.eqb_spec ex 2047) as [->|N5]; [reflexivity|]. destruct (ex =? 0); intros [K|K]; discriminate K.
Qed.
Lemma decode_64_finite bits m e : bits < 2 ^ 64 -> double_precision bits m e -> decode64 bits = Finite (2 ^ 63 <=? bits) m e.
Proof.
  intros H D. assert (F : Propset.Spec.field bits 52 2047 < 2047) by (destruct D as [D|]; [rewrite D; reflexivity|assumption]).
  destruct (decode64 bits) as [neg m' e'|neg|neg] eqn:E.
  - destruct (decode_64 _ _ _ _ H E) as [D' ->]. destruct D, D'; try lia; reflexivity.
  - rewrite (decode_64_special bits neg) in F by auto. lia.
  - rewrite (decode_64_special bits neg) in F by auto. lia.
Qed.

(** ** Six significant digits *)
Lemma small_range bits m e : single bits m e -> Propset.Statements.in_range m e.
Proof.
  unfold Propset.Statements.in_range. intros [E|E1 E2]; unfold Propset.Spec.fraction.
  - assert (bits mod 2 ^ 23 < 2 ^ 23) by (apply N.mod_lt; discriminate). split; [|lia].
    apply (N.lt_trans _ _ _ H). vm_compute. reflexivity.
  - assert (bits mod 2 ^ 23 < 2 ^ 23) by (apply N.mod_lt; discriminate). split; [|lia].
    apply (N.lt_trans _ (2 ^ 24)); [change (2 ^ 24) with (2 ^ 23 + 2 ^ 23); lia|vm_compute; reflexivity].
Qed.
Lemma general_nearest neg m e : Propset.Statements.in_range m e ->
  exists v, Magic.Spec.json_value (general6 (Finite neg m e)) v /\ Propset.Statements.nearest_six neg m e v.
Proof.
  intros H. destruct (Propset.NumberProofs.number_text Lib.Bytes.linux64 neg m e H) as (v & Hv & Hn). exists v. split; [|exact Hn].
  cbn [Propset.Output.double_text] in Hv. cbn [general6]. unfold minus. destruct neg; exact Hv.
Qed.
Lemma general_single bits : bits < 2 ^ 30 -> exists m e v, single bits m e /\
  Magic.Spec.json_value (general6 (decode32 bits)) v /\ Propset.Statements.nearest_six false m e v.
Proof.
  intros H. assert (H' : bits < 2 ^ 32) by (apply (N.lt_trans _ _ _ H); reflexivity).
  assert (F : Propset.Spec.field bits 23 255 < 255).
  { unfold Propset.Spec.field. change (255 + 1) with 256. assert (bits / 2 ^ 23 < 128); [|rewrite N.mod_small; lia].
    apply N.div_lt_upper_bound; [discriminate|]. exact H. }
  destruct (decode32 bits) as [neg m e|neg|neg] eqn:E.
  - destruct (decode_32 _ _ _ _ H' E) as [S ->]. exists m, e.
    assert (2 ^ 31 <=? bits = false) as -> by (apply N.leb_gt; apply (N.lt_trans _ _ _ H); reflexivity).
    destruct (general_nearest false m e (small_range _ _ _ S)) as (v & Hv & Hn). exists v. auto.
  - unfold decode32, decode in E. rewrite N.shiftr_div_pow2 in E. unfold Propset.Spec.field in F. change (255 + 1) with (2 ^ 8) in F.
    change (2 ^ 8 - 1) with 255 in E. destruct (N.eqb_spec (bits / 2 ^ 23 mod 2 ^ 8) 255); [lia|].
    destruct (_ =? 0) in E; discriminate E.
  - unfold decode32, decode in E. rewrite N.shiftr_div_pow2 in E. unfold Propset.Spec.field in F. change (255 + 1) with (2 ^ 8) in F.
    change (2 ^ 8 - 1) with 255 in E. destruct (N.eqb_spec (bits / 2 ^ 23 mod 2 ^ 8) 255); [lia|].
    destruct (_ =? 0) in E; discriminate E.
Qed.

(** ** Six decimals *)
Lemma div_even_nearest a b : b <> 0 -> nearest a b (div_even a b).
Proof.
  intros Hb. unfold div_even, nearest. pose proof (N.div_mod' a b) as D. pose proof (N.mod_lt a b Hb) as L.
  set (d := a / b) in *. set (r := a mod b) in *. clearbody d r.
  rewrite (N.mul_comm b d) in D.
  destruct (N.ltb_spec b (2 * r)).
  - repeat split; first [nia | intros [K|K]; exfalso; nia].
  - destruct (N.eqb_spec (2 * r) b) as [E|E]; cbn [andb].
    + destruct (N.odd d) eqn:O.
      * repeat split; try nia. intros _. rewrite N.even_add, <- (N.negb_odd d), O. reflexivity.
      * repeat split; try nia. intros _. rewrite <- N.negb_odd, O. reflexivity.
    + repeat split; first [nia | intros [K|K]; exfalso; nia].
Qed.
Lemma fixed_finite neg m e : fixed_point neg m e (fixed6 (Finite neg m e)).
Proof.
  exists (scaled m e 6), (places 6 (scaled m e 6)). split; [|split].
  - unfold scaled. change (Z.to_N 6) with 6. change (Z.to_N (- (6))) with 0. change (10 ^ 0) with 1. change (10 ^ 6) with 1000000.
    replace (2 ^ Z.to_N (- e) * 1) with (2 ^ Z.to_N (- e)) by lia. apply div_even_nearest. apply N.pow_nonzero. discriminate.
  - unfold places. change (N.of_nat 6) with 6. change (10 ^ 6) with 1000000.
    set (n := scaled m e 6). assert (L : n mod 1000000 < 1000000) by (apply N.mod_lt; discriminate).
    exists (pad0 6 (dec (n mod 1000000))). split; [reflexivity|]. split.
    + unfold lenN. rewrite length_pad0_dec by (exact L || lia). reflexivity.
    + rewrite dec_num_pad0. reflexivity.
  - cbn [fixed6]. unfold minus. destruct neg; reflexivity.
Qed.
