(** The text of a floating-point number: a JSON number, the nearest one with six digits. *)
From Coq Require Import List NArith ZArith Lia Bool Strings.String ZifyBool ZifyNat ZifyN.
From Verif Require Import Lib.Res Lib.Bytes Lib.BytesFacts Lib.Text Lib.NumSpec Lib.NumFacts Common.Model Common.Spec
  Common.Fields Common.TimeProofs Magic.Spec Asf.DocProofs Propset.Model Propset.Output Propset.Spec Propset.Statements.
Import ListNotations.
Local Open Scope N_scope.
Ltac Zify.zify_post_hook ::= Z.div_mod_to_equations.
Arguments N.pow : simpl never.
Arguments Z.pow : simpl never.

(** ** The exponent *)
Lemma exponent10_spec num den n : forall x, reaches num den (x + 1) = false -> reaches num den (x - Z.of_nat n + 1) = true ->
  (1 <= n)%nat ->
  let r := exponent10 n num den x in
  reaches num den r = true /\ reaches num den (r + 1) = false.
Proof.
  induction n as [|n IH]; intros x H1 H2 Hn; [lia|]. cbn [exponent10].
  destruct (reaches num den x) eqn:E; [split; [exact E|exact H1]|].
  destruct n as [|n].
  - replace (x - Z.of_nat 1 + 1)%Z with x in H2 by lia. congruence.
  - apply IH; [replace (x - 1 + 1)%Z with x by lia; exact E| |lia].
    replace (x - 1 - Z.of_nat (S n) + 1)%Z with (x - Z.of_nat (S (S n)) + 1)%Z by lia. exact H2.
Qed.

Lemma pow_split (a b : N) : 10 ^ (a + b) = 10 ^ a * 10 ^ b.
Proof. apply N.pow_add_r. Qed.
Lemma pow_pos (b k : N) : b <> 0 -> 1 <= b ^ k.
Proof. intros H. pose proof (N.pow_nonzero b k H). lia. Qed.

Lemma round_even_near num den : den <> 0 ->
  let q := round_even num den in 2 * num <= (2 * q + 1) * den /\ (2 * q - 1) * den <= 2 * num.
Proof.
  intros Hd. unfold round_even. pose proof (N.div_mod num den Hd) as D. pose proof (N.mod_lt num den Hd) as M.
  set (q := num / den) in *. set (r := num mod den) in *. clearbody q r. subst num. cbn zeta.
  assert (K : forall k : N, (2 * k - 1) * den <= 2 * (k * den)) by (intros k; nia).
  destruct (N.ltb_spec (2 * r) den); [nia|].
  destruct (N.ltb_spec den (2 * r)).
  - replace (2 * (q + 1) - 1) with (2 * q + 1) by lia. nia.
  - destruct (N.even q); [nia|]. replace (2 * (q + 1) - 1) with (2 * q + 1) by lia. nia.
Qed.
Lemma round_even_range num den a b : den <> 0 -> a * den <= num -> num < b * den ->
  a <= round_even num den <= b.
Proof.
  intros Hd H1 H2. assert (A : a <= num / den) by (apply N.div_le_lower_bound; lia).
  assert (C : num / den < b) by (apply N.div_lt_upper_bound; lia).
  unfold round_even. destruct (_ <? _); [lia|]. destruct (_ <? _); [lia|]. destruct (N.even _); lia.
Qed.

(** ** Six digits *)
Lemma reaches_true num den x : reaches num den x = true ->
  100000 * times10 (x - 5) den <= times10 (- (x - 5)) num.
Proof.
  unfold reaches, times10. intros H. destruct (Z.leb_spec 0 x).
  - destruct (Z.le_gt_cases 5 x).
    + replace (Z.to_N (- (x - 5))) with 0 by lia. replace (Z.to_N x) with (Z.to_N (x - 5) + 5) in H by lia.
      rewrite pow_split in H. change (10 ^ 5) with 100000 in H. change (10 ^ 0) with 1. nia.
    + replace (Z.to_N (x - 5)) with 0 by lia. replace 100000 with (10 ^ (Z.to_N x + Z.to_N (- (x - 5)))).
      2:{ replace (Z.to_N x + Z.to_N (- (x - 5))) with 5 by lia. reflexivity. }
      rewrite pow_split. change (10 ^ 0) with 1. nia.
  - replace (Z.to_N (x - 5)) with 0 by lia. replace (Z.to_N (- (x - 5))) with (Z.to_N (- x) + 5) by lia.
    rewrite pow_split. change (10 ^ 5) with 100000. change (10 ^ 0) with 1. nia.
Qed.
Lemma reaches_false num den x : reaches num den (x + 1) = false ->
  times10 (- (x - 5)) num < 1000000 * times10 (x - 5) den.
Proof.
  unfold reaches, times10. intros H. destruct (Z.leb_spec 0 (x + 1)).
  - destruct (Z.le_gt_cases 5 x).
    + replace (Z.to_N (- (x - 5))) with 0 by lia. replace (Z.to_N (x + 1)) with (Z.to_N (x - 5) + 6) in H by lia.
      rewrite pow_split in H. change (10 ^ 6) with 1000000 in H. change (10 ^ 0) with 1. nia.
    + replace (Z.to_N (x - 5)) with 0 by lia. replace 1000000 with (10 ^ (Z.to_N (x + 1) + Z.to_N (- (x - 5)))).
      2:{ replace (Z.to_N (x + 1) + Z.to_N (- (x - 5))) with 6 by lia. reflexivity. }
      rewrite pow_split. change (10 ^ 0) with 1.
      pose proof (pow_pos 10 (Z.to_N (- (x - 5))) ltac:(discriminate)). nia.
  - replace (Z.to_N (x - 5)) with 0 by lia. replace (Z.to_N (- (x - 5))) with (Z.to_N (- (x + 1)) + 6) by lia.
    rewrite pow_split. change (10 ^ 6) with 1000000. change (10 ^ 0) with 1. nia.
Qed.

Lemma six_digits_spec num den : den <> 0 -> reaches num den 309 = false -> reaches num den (-324) = true ->
  exists k x, six_digits_of num den k (x - 5) /\
    ((six_digits num den = (k, x) /\ k < 1000000) \/ (k = 1000000 /\ six_digits num den = (100000, (x + 1)%Z))) /\
    (-324 <= x <= 308)%Z.
Proof.
  intros Hd H1 H2. pose proof (exponent10_spec num den 633 308 H1 ltac:(exact H2) ltac:(lia)) as E.
  unfold six_digits, decimal_exponent. cbn zeta in E. set (x := exponent10 633 num den 308) in *.
  assert (R : (-324 <= x <= 308)%Z).
  { assert (G : forall n y, (y - Z.of_nat n <= exponent10 n num den y <= y)%Z).
    { clear. induction n as [|n IH]; intros y; cbn [exponent10]; [lia|]. destruct (reaches _ _ _); [lia|]. specialize (IH (y - 1)%Z). lia. }
    pose proof (G 633%nat 308%Z) as G'. fold x in G'. destruct (Z.eq_dec x (-325)) as [X|X]; [|lia].
    exfalso. destruct E as [_ E]. rewrite X in E. change (-325 + 1)%Z with (-324)%Z in E. congruence. }
  clearbody x. destruct E as [E1 E2].
  apply reaches_true in E1. apply reaches_false in E2.
  set (a := times10 (- (x - 5)) num) in *. set (b := times10 (x - 5) den) in *.
  assert (Hb : b <> 0).
  { unfold b, times10. pose proof (pow_pos 10 (Z.to_N (x - 5)) ltac:(discriminate)). nia. }
  assert (En : (if (x <=? 5)%Z then round_even (num * 10 ^ Z.to_N (5 - x)) den else round_even num (den * 10 ^ Z.to_N (x - 5))) = round_even a b).
  { unfold a, b, times10. destruct (Z.leb_spec x 5).
    - replace (- (x - 5))%Z with (5 - x)%Z by lia. replace (Z.to_N (x - 5)) with 0 by lia. change (10 ^ 0) with 1. rewrite N.mul_1_r. reflexivity.
    - replace (Z.to_N (- (x - 5))) with 0 by lia. change (10 ^ 0) with 1. rewrite N.mul_1_r. reflexivity. }
  rewrite En. set (k := round_even a b). exists k, x.
  pose proof (round_even_near a b Hb) as Nr. pose proof (round_even_range a b 100000 1000000 Hb E1 E2) as Rr.
  fold k in Nr, Rr. cbn zeta in Nr. split; [|split; [|exact R]].
  - unfold six_digits_of. fold a b. tauto.
  - destruct (N.eqb_spec k 1000000) as [->|Nk]; [right; auto|left; split; [reflexivity|lia]].
Qed.

(** ** Digits *)
Lemma strip_zeros_spec s : exists j, s = strip_zeros s ++ repeat x30 j.
Proof.
  induction s as [|c r [j IH]]; [exists O; reflexivity|]. cbn [strip_zeros]. destruct (strip_zeros r) as [|d r'] eqn:E.
  - destruct (byte_eqb c x30) eqn:Ec; [apply byte_eqb_eq in Ec as ->; exists (S j)|exists j]; cbn in *; rewrite <- IH; reflexivity.
  - exists j. cbn. f_equal. exact IH.
Qed.
Lemma num_acc_zeros j acc : num_acc 10 acc (repeat x30 j) = Some (acc * 10 ^ N.of_nat j).
Proof.
  revert acc. induction j as [|j IH]; intros acc; [cbn; rewrite N.mul_1_r; reflexivity|].
  cbn [repeat num_acc]. change (digit_value 10 x30) with (Some 0). cbv iota. rewrite IH. f_equal.
  rewrite Nat2N.inj_succ, N.pow_succ_r'. lia.
Qed.
Lemma acc_app s t acc : num_acc 10 acc (s ++ t) = match num_acc 10 acc s with Some n => num_acc 10 n t | None => None end.
Proof. revert acc. induction s as [|c s IH]; intros acc; [reflexivity|]. cbn. destruct (digit_value 10 c); [apply IH|reflexivity]. Qed.
Lemma drop_zeros a j n : a <> [] -> dec_num (a ++ repeat x30 j) = Some n ->
  exists n', dec_num a = Some n' /\ n = n' * 10 ^ N.of_nat j.
Proof.
  intros Ha H. unfold dec_num, num in *. destruct a as [|c a]; [congruence|]. cbn [app] in H.
  change (c :: a ++ repeat x30 j) with ((c :: a) ++ repeat x30 j) in H. rewrite acc_app in H.
  destruct (num_acc 10 0 (c :: a)) as [n'|]; [|discriminate]. rewrite num_acc_zeros in H. injection H as <-. eauto.
Qed.
Lemma pad0_nil k s : pad0 k s = [] -> s = [].
Proof. unfold pad0. intros H. apply app_eq_nil in H. tauto. Qed.

(** [n / 10^k] as digits, fraction and their meaning *)
Lemma decimal_parts n k : (k <> 0)%nat -> exists i frac d m j,
  decimal n k = i ++ frac /\ json_number i (n / 10 ^ N.of_nat k) /\ json_fraction frac d /\ dec_num (i ++ d) = Some m /\
  n = m * 10 ^ j /\ lenN d + j = N.of_nat k.
Proof.
  intros Hk. unfold decimal. set (p := 10 ^ N.of_nat k). assert (P : p <> 0) by (apply N.pow_nonzero; discriminate).
  set (f := pad0 k (dec (n mod p))). assert (Ef : dec_num f = Some (n mod p)) by apply dec_num_pad0.
  assert (Lf : lenN f = N.of_nat k).
  { unfold f. unfold lenN; rewrite length_pad0_dec; [reflexivity| |lia]. apply N.mod_lt. exact P. }
  assert (Ew : dec_num (dec (n / p) ++ f) = Some n).
  { rewrite (dec_num_app _ _ _ _ (dec_num_dec (n / p)) Ef). f_equal. rewrite Lf. fold p. rewrite (N.div_mod n p P) at 3. lia. }
  destruct (strip_zeros_spec f) as [j Ej]. set (d := strip_zeros f) in *. clearbody d.
  assert (Lj : lenN d + N.of_nat j = N.of_nat k).
  { rewrite <- Lf, Ej, lenN_app. unfold lenN. rewrite repeat_length. reflexivity. }
  rewrite Ej, app_assoc in Ew. destruct (drop_zeros (dec (n / p) ++ d) j n) as (m & Em & En); [|exact Ew|].
  { intros X. apply app_eq_nil in X as [X _]. pose proof (dec_num_dec (n / p)) as Y. rewrite X in Y. discriminate Y. }
  exists (dec (n / p)), (match d with [] => [] | g => B "." ++ g end), d, m, (N.of_nat j).
  split; [destruct d; reflexivity|]. split; [apply dec_number|]. split.
  { destruct d as [|c d]; [left; auto|]. right. split; [reflexivity|].
    rewrite Ej in Ef. destruct (drop_zeros (c :: d) j _ ltac:(discriminate) Ef) as (x & Hx & _). eauto. }
  auto.
Qed.
Lemma decimal_whole n : decimal n 0 = dec n.
Proof. unfold decimal. change (10 ^ N.of_nat 0) with 1. rewrite N.div_1_r, N.mod_1_r. apply app_nil_r. Qed.

Lemma exponent_ok x : json_exponent (exponent_text x) x /\ exponent_text x <> [].
Proof.
  unfold exponent_text. destruct (Z.ltb_spec x 0); (split; [right|discriminate]).
  - exists x65, [x2d], (pad0 2 (dec (Z.to_N (- x)))), (Z.to_N (- x)). split; [reflexivity|]. split; [auto|].
    split; [apply dec_num_pad0|]. right. split; [reflexivity|lia].
  - exists x65, [x2b], (pad0 2 (dec (Z.to_N x))), (Z.to_N x). split; [reflexivity|]. split; [auto|].
    split; [apply dec_num_pad0|]. left. split; [auto|lia].
Qed.

(** ** The number in the text *)
Definition sign_text (neg : bool) : bytes := if neg then B "-" else [].
Definition signed_of (neg : bool) (n : N) : Z := if neg then (- Z.of_N n)%Z else Z.of_N n.

Lemma parts_value neg i k frac d ex x m : json_number i k -> json_fraction frac d -> json_exponent ex x ->
  dec_num (i ++ d) = Some m ->
  exists v, json_value (sign_text neg ++ i ++ frac ++ ex) v /\ is_number v (signed_of neg m) (x - Z.of_N (lenN d)).
Proof.
  intros Hi Hf Hx Hm.
  destruct neg eqn:En; [|destruct frac as [|c frac'] eqn:Efr; [destruct ex as [|c ex'] eqn:Eex|]].
  - eexists. split; [apply jv_real; apply (jreal true i k frac d ex x m); auto|]. split; reflexivity.
  - destruct Hf as [[_ ->]|[Hf _]]; [|discriminate]. destruct Hx as [[_ ->]|(? & ? & ? & ? & Hx & _)]; [|discriminate Hx].
    cbn [app sign_text]. rewrite !app_nil_r in *. destruct Hi as [Hi1 Hi2]. rewrite Hm in Hi1. injection Hi1 as <-.
    exists (JNum m). split; [apply jv_num; split; assumption|]. split; reflexivity.
  - eexists. split; [apply jv_real; apply (jreal false i k [] d (c :: ex') x m); auto; right; right; discriminate|]. split; reflexivity.
  - eexists. split; [apply jv_real; apply (jreal false i k (c :: frac') d ex x m); auto; right; left; discriminate|]. split; reflexivity.
Qed.

Lemma same_decimal_scale (m : Z) (j : N) (e : Z) : same_decimal m e (m * 10 ^ Z.of_N j) (e - Z.of_N j).
Proof.
  unfold same_decimal. rewrite Z.min_r by lia. replace (e - (e - Z.of_N j))%Z with (Z.of_N j) by lia.
  replace (e - Z.of_N j - (e - Z.of_N j))%Z with 0%Z by lia. change (10 ^ 0)%Z with 1%Z. lia.
Qed.

Lemma digits_value neg n x : exists v a y,
  json_value (sign_text neg ++ (if (x <? -4)%Z || (6 <=? x)%Z then decimal n 5 ++ exponent_text x else decimal n (Z.to_nat (5 - x)))) v /\
  is_number v a y /\ same_decimal a y (signed_of neg n) (x - 5).
Proof.
  assert (G : forall k ex y, json_exponent ex y -> (y - Z.of_nat k = x - 5)%Z ->
    exists v a z, json_value (sign_text neg ++ decimal n k ++ ex) v /\ is_number v a z /\ same_decimal a z (signed_of neg n) (x - 5)).
  { intros k ex y Hex Hk. destruct (Nat.eq_dec k 0) as [->|Nk].
    - rewrite decimal_whole. destruct (parts_value neg (dec n) n [] [] ex y n (dec_number n) (or_introl (conj eq_refl eq_refl)) Hex) as (v & Hv & Hn).
      { rewrite app_nil_r. apply dec_num_dec. }
      exists v, (signed_of neg n), (x - 5)%Z. split; [exact Hv|]. split.
      + change (lenN (@nil byte)) with 0 in Hn. replace (x - 5)%Z with (y - 0)%Z by lia. exact Hn.
      + unfold same_decimal. reflexivity.
    - destruct (decimal_parts n k Nk) as (i & frac & d & m & j & E & Hi & Hf & Hm & En & El). rewrite E, <- app_assoc.
      destruct (parts_value neg i _ frac d ex y m Hi Hf Hex Hm) as (v & Hv & Hn).
      exists v, (signed_of neg m), (y - Z.of_N (lenN d))%Z. split; [exact Hv|]. split; [exact Hn|].
      assert (Es : signed_of neg n = (signed_of neg m * 10 ^ Z.of_N j)%Z).
      { unfold signed_of. destruct neg; rewrite En, N2Z.inj_mul, N2Z.inj_pow; lia. }
      rewrite Es. replace (x - 5)%Z with (y - Z.of_N (lenN d) - Z.of_N j)%Z by lia. apply same_decimal_scale. }
  destruct ((x <? -4)%Z || (6 <=? x)%Z) eqn:Ex.
  - apply (G 5%nat (exponent_text x) x); [apply exponent_ok|lia].
  - destruct (G (Z.to_nat (5 - x)) [] 0%Z) as (v & a & y & H1 & H2); [left; auto|lia|].
    rewrite app_nil_r in H1. eauto.
Qed.

Lemma same_decimal_trans a x b y c z : same_decimal a x b y -> same_decimal b y c z -> same_decimal a x c z.
Proof.
  unfold same_decimal. intros H1 H2. set (t := Z.min x (Z.min y z)).
  assert (S1 : (a * 10 ^ (x - t) = b * 10 ^ (y - t))%Z).
  { replace (x - t)%Z with (x - Z.min x y + (Z.min x y - t))%Z by lia. replace (y - t)%Z with (y - Z.min x y + (Z.min x y - t))%Z by lia.
    rewrite !Z.pow_add_r by lia. rewrite !Z.mul_assoc, H1. reflexivity. }
  assert (S2 : (b * 10 ^ (y - t) = c * 10 ^ (z - t))%Z).
  { replace (y - t)%Z with (y - Z.min y z + (Z.min y z - t))%Z by lia. replace (z - t)%Z with (z - Z.min y z + (Z.min y z - t))%Z by lia.
    rewrite !Z.pow_add_r by lia. rewrite !Z.mul_assoc, H2. reflexivity. }
  assert (S : (a * 10 ^ (x - t) = c * 10 ^ (z - t))%Z) by congruence.
  replace (x - t)%Z with (x - Z.min x z + (Z.min x z - t))%Z in S by lia. replace (z - t)%Z with (z - Z.min x z + (Z.min x z - t))%Z in S by lia.
  rewrite !Z.pow_add_r in S by lia. rewrite !Z.mul_assoc in S.
  assert (P : (0 < 10 ^ (Z.min x z - t))%Z) by (apply Z.pow_pos_nonneg; lia). nia.
Qed.

Lemma positive_value neg num den : den <> 0 -> reaches num den 309 = false -> reaches num den (-324) = true ->
  exists v a y k x, json_value (sign_text neg ++ positive_text num den) v /\ is_number v a y /\
    six_digits_of num den k x /\ same_decimal a y (signed_of neg k) x.
Proof.
  intros Hd H1 H2. destruct (six_digits_spec num den Hd H1 H2) as (k & x & Hs & [[E _]|[-> E]] & _); unfold positive_text; rewrite E.
  - destruct (digits_value neg k x) as (v & a & y & Hv & Hn & Hd'). exists v, a, y, k, (x - 5)%Z. auto.
  - destruct (digits_value neg 100000 (x + 1)) as (v & a & y & Hv & Hn & Hd'). exists v, a, y, 1000000, (x - 5)%Z.
    split; [exact Hv|]. split; [exact Hn|]. split; [exact Hs|].
    apply (same_decimal_trans _ _ _ _ _ _ Hd').
    replace (signed_of neg 1000000) with (signed_of neg 100000 * 10 ^ Z.of_N 1)%Z by (destruct neg; reflexivity).
    replace (x - 5)%Z with (x + 1 - 5 - Z.of_N 1)%Z by lia. apply same_decimal_scale.
Qed.

Lemma number_text pl neg m e : in_range m e -> exists v, json_value (double_text pl (Num neg m e)) v /\ nearest_six neg m e v.
Proof.
  intros [Hm He]. cbn [double_text]. fold (sign_text neg). unfold magnitude_text. destruct (N.eqb_spec m 0) as [->|Nm].
  - destruct (parts_value neg (B "0") 0 [] [] [] 0 0) as (v & Hv & Hn).
    + split; [reflexivity|]. intros r H. injection H. auto.
    + left; auto.
    + left; auto.
    + reflexivity.
    + rewrite !app_nil_r in Hv. exists v. split; [exact Hv|]. exists (signed_of neg 0), 0%Z. split; [exact Hn|].
      left. split; [reflexivity|]. destruct neg; reflexivity.
  - assert (G : forall num den, num = times2 e m -> den = times2 (- e) 1 ->
      exists v, json_value (sign_text neg ++ positive_text num den) v /\ nearest_six neg m e v).
    { intros num den En Ed.
      assert (Hd : den <> 0). { rewrite Ed. unfold times2. pose proof (pow_pos 2 (Z.to_N (- e)) ltac:(discriminate)). lia. }
      destruct (positive_value neg num den Hd) as (v & a & y & k & x & Hv & Hn & Hs & Hsd).
      - unfold reaches. cbn [Z.leb Z.compare]. apply N.leb_gt. rewrite En. unfold times2.
        assert (Q : 2 ^ Z.to_N e <= 2 ^ 971) by (apply N.pow_le_mono_r; lia).
        assert (B1 : 2 ^ 53 * 2 ^ 971 < 10 ^ 309) by (vm_compute; reflexivity).
        change (Z.to_N 309) with 309. apply (N.le_lt_trans _ (2 ^ 53 * 2 ^ 971)); [apply N.mul_le_mono; lia|].
        apply (N.lt_le_trans _ _ _ B1). rewrite <- (N.mul_1_l (10 ^ 309)) at 1. apply N.mul_le_mono_r. lia.
      - unfold reaches. cbn [Z.leb Z.compare]. apply N.leb_le. rewrite Ed, En. unfold times2. rewrite N.mul_1_l.
        assert (Q : 2 ^ Z.to_N (- e) <= 2 ^ 1074) by (apply N.pow_le_mono_r; lia).
        assert (B1 : 2 ^ 1074 <= 10 ^ 324) by (vm_compute; discriminate).
        change (Z.to_N (- -324)) with 324. apply (N.le_trans _ _ _ Q). apply (N.le_trans _ _ _ B1).
        rewrite <- (N.mul_1_l (10 ^ 324)) at 1. apply N.mul_le_mono_r.
        pose proof (pow_pos 2 (Z.to_N e) ltac:(discriminate)). nia.
      - exists v. split; [exact Hv|]. exists a, y. split; [exact Hn|]. right. split; [exact Nm|].
        exists k, x. rewrite <- En, <- Ed. split; [exact Hs|exact Hsd]. }
    destruct (Z.leb_spec 0 e).
    + apply G; unfold times2; [reflexivity|]. replace (Z.to_N (- e)) with 0 by lia. reflexivity.
    + apply G; unfold times2; [|lia]. replace (Z.to_N e) with 0 by lia. change (2 ^ 0) with 1. lia.
Qed.
