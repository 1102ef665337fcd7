(** Formatting a number and reading it back. *)
From Coq Require Import List NArith ZArith Bool Lia.
From Coq Require Import ZifyBool ZifyNat ZifyN.
From Coq Require Import Decimal Hexadecimal DecimalFacts HexadecimalFacts DecimalN HexadecimalN.
From Verif Require Import Lib.Bytes Lib.BytesFacts Lib.Text Lib.NumSpec.
Import ListNotations.
Local Open Scope N_scope.
Ltac Zify.zify_post_hook ::= Z.div_mod_to_equations.

(** ** Decimal *)
Lemma num_acc_dec_digits u acc :
  num_acc 10 acc (dec_digits u) =
  Some (match acc with N0 => N.of_uint u | Npos p => Npos (Pos.of_uint_acc u p) end).
Proof.
  assert (forall u p, num_acc 10 (Npos p) (dec_digits u) = Some (Npos (Pos.of_uint_acc u p))) as H.
  { clear. induction u as [|u IH|u IH|u IH|u IH|u IH|u IH|u IH|u IH|u IH|u IH]; intros p;
      cbn [dec_digits num_acc Pos.of_uint_acc]; [reflexivity|..];
      (match goal with |- context [digit_value 10 ?c] =>
         let v := eval vm_compute in (digit_value 10 c) in change (digit_value 10 c) with v end);
      cbn beta iota;
      (match goal with |- num_acc 10 ?a _ = Some (Npos (Pos.of_uint_acc _ ?b)) =>
         replace a with (Npos b) by lia end); apply IH. }
  destruct acc as [|p]; [|apply H].
  unfold N.of_uint.
  induction u as [|u IH|u IH|u IH|u IH|u IH|u IH|u IH|u IH|u IH|u IH];
      cbn [dec_digits num_acc Pos.of_uint]; [reflexivity|exact IH|..]; apply (H u).
Qed.

Lemma dec_digits_nonempty u : u <> Decimal.Nil -> dec_digits u <> [].
Proof. destruct u; cbn; congruence. Qed.

Lemma N_to_uint_nonnil n : N.to_uint n <> Decimal.Nil.
Proof.
  destruct n as [|p]; cbn; [discriminate|].
  apply DecimalPos.Unsigned.to_uint_nonnil.
Qed.

Lemma num_nonempty base s : s <> [] -> num base s = num_acc base 0 s.
Proof. destruct s; cbn; congruence. Qed.

Lemma dec_nonempty n : dec n <> [].
Proof. apply dec_digits_nonempty, N_to_uint_nonnil. Qed.

Lemma dec_num_dec n : dec_num (dec n) = Some n.
Proof.
  unfold dec_num. rewrite num_nonempty by apply dec_nonempty.
  unfold dec. rewrite num_acc_dec_digits. f_equal. apply DecimalN.Unsigned.of_to.
Qed.

Lemma dec_inj a b : dec a = dec b -> a = b.
Proof. intros H. assert (dec_num (dec a) = dec_num (dec b)) by congruence.
  rewrite !dec_num_dec in *. congruence. Qed.

(** ** Hexadecimal, both cases *)
Lemma num_acc_hex_digits u acc :
  num_acc 16 acc (hex_digits u) =
  Some (match acc with N0 => N.of_hex_uint u | Npos p => Npos (Pos.of_hex_uint_acc u p) end).
Proof.
  assert (forall u p, num_acc 16 (Npos p) (hex_digits u) = Some (Npos (Pos.of_hex_uint_acc u p))) as H.
  { clear. induction u as [|u IH|u IH|u IH|u IH|u IH|u IH|u IH|u IH|u IH|u IH|u IH|u IH|u IH|u IH|u IH|u IH]; intros p;
      cbn [hex_digits num_acc Pos.of_hex_uint_acc]; [reflexivity|..];
      (match goal with |- context [digit_value 16 ?c] =>
         let v := eval vm_compute in (digit_value 16 c) in change (digit_value 16 c) with v end);
      cbn beta iota;
      (match goal with |- num_acc 16 ?a _ = Some (Npos (Pos.of_hex_uint_acc _ ?b)) =>
         replace a with (Npos b) by lia end); apply IH. }
  destruct acc as [|p]; [|apply H].
  unfold N.of_hex_uint.
  induction u as [|u IH|u IH|u IH|u IH|u IH|u IH|u IH|u IH|u IH|u IH|u IH|u IH|u IH|u IH|u IH|u IH];
      cbn [hex_digits num_acc Pos.of_hex_uint]; [reflexivity|exact IH|..]; apply (H u).
Qed.

Lemma num_acc_hex_digits_up u acc :
  num_acc 16 acc (hex_digits_up u) = num_acc 16 acc (hex_digits u).
Proof.
  revert acc.
  induction u as [|u IH|u IH|u IH|u IH|u IH|u IH|u IH|u IH|u IH|u IH|u IH|u IH|u IH|u IH|u IH|u IH];
    intros acc; cbn [hex_digits hex_digits_up num_acc]; [reflexivity|..]; apply IH.
Qed.

Lemma N_to_hex_uint_nonnil n : N.to_hex_uint n <> Hexadecimal.Nil.
Proof.
  destruct n as [|p]; cbn; [discriminate|].
  apply HexadecimalPos.Unsigned.to_uint_nonnil.
Qed.

Lemma hex_nonempty n : hex n <> [].
Proof. unfold hex. generalize (N_to_hex_uint_nonnil n). destruct (N.to_hex_uint n); cbn; congruence. Qed.
Lemma hex_up_nonempty n : hex_up n <> [].
Proof. unfold hex_up. generalize (N_to_hex_uint_nonnil n). destruct (N.to_hex_uint n); cbn; congruence. Qed.

Lemma hex_num_hex n : hex_num (hex n) = Some n.
Proof.
  unfold hex_num. rewrite num_nonempty by apply hex_nonempty.
  unfold hex. rewrite num_acc_hex_digits. f_equal. apply HexadecimalN.Unsigned.of_to.
Qed.
Lemma hex_num_hex_up n : hex_num (hex_up n) = Some n.
Proof.
  unfold hex_num. rewrite num_nonempty by apply hex_up_nonempty.
  unfold hex_up. rewrite num_acc_hex_digits_up, num_acc_hex_digits. f_equal.
  apply HexadecimalN.Unsigned.of_to.
Qed.

(** ** Padding *)
Lemma num_acc_zeros base k s acc : 10 <= base ->
  acc = 0 -> num_acc base acc (repeat x30 k ++ s) = num_acc base acc s.
Proof.
  intros Hb ->. induction k as [|k IH]; cbn [repeat app num_acc]; [reflexivity|].
  unfold digit_value. change (b2n x30) with 48. cbn [andb N.leb N.compare].
  change (48 - 48) with 0. cbn.
  destruct (N.ltb_spec 0 base); [|lia]. exact IH.
Qed.

Lemma num_pad0 base w s : 10 <= base -> s <> [] -> num base (pad0 w s) = num base s.
Proof.
  intros Hb Hs. unfold pad0. rewrite !num_nonempty; [apply num_acc_zeros; auto|assumption|].
  destruct s; [congruence|]. destruct (w - _)%nat; cbn; congruence.
Qed.

Lemma dec_num_pad0 w n : dec_num (pad0 w (dec n)) = Some n.
Proof. unfold dec_num. rewrite num_pad0; [apply dec_num_dec|lia|apply dec_nonempty]. Qed.
Lemma hex_num_pad0 w n : hex_num (pad0 w (hex n)) = Some n.
Proof. unfold hex_num. rewrite num_pad0; [apply hex_num_hex|lia|apply hex_nonempty]. Qed.
Lemma hex_num_pad0_up w n : hex_num (pad0 w (hex_up n)) = Some n.
Proof. unfold hex_num. rewrite num_pad0; [apply hex_num_hex_up|lia|apply hex_up_nonempty]. Qed.

(** ** Lengths *)
Lemma num_acc_lower base s acc v :
  num_acc base acc s = Some v -> acc * base ^ lenN s <= v.
Proof.
  revert acc; induction s as [|c s IH]; intros acc; cbn [num_acc].
  - intros [= ->]. change (lenN (@nil byte)) with 0. rewrite N.pow_0_r. lia.
  - destruct (digit_value base c) as [d|]; [|discriminate].
    intros H%IH. rewrite lenN_cons, N.add_1_r, N.pow_succ_r'. nia.
Qed.

Lemma length_dec_le k n : n < 10 ^ N.of_nat k -> (1 <= k)%nat -> (List.length (dec n) <= k)%nat.
Proof.
  intros Hn Hk.
  destruct (N.eq_dec n 0) as [->|Hn0]; [exact Hk|].
  pose proof (dec_num_dec n) as Hv. unfold dec_num in Hv.
  rewrite num_nonempty in Hv by apply dec_nonempty.
  pose proof (DecimalN.Unsigned.to_of (N.to_uint n)) as Hu.
  rewrite DecimalN.Unsigned.of_to in Hu.
  unfold dec in *.
  remember (N.to_uint n) as u eqn:Eu.
  assert (u = Decimal.unorm u) as Hnorm by congruence. clear Hu.
  assert (exists c s d, dec_digits u = c :: s /\ digit_value 10 c = Some d /\ 1 <= d) as (c & s & d & E & Hd & Hd1).
  { destruct u; cbn [dec_digits];
      try (eexists _, _, _; split; [reflexivity|]; split; [vm_compute; reflexivity|vm_compute; discriminate]).
    - exfalso. revert Eu. apply not_eq_sym, N_to_uint_nonnil.
    - exfalso. unfold Decimal.unorm in Hnorm. cbn in Hnorm.
      destruct (Decimal.nzhead u) eqn:En; try discriminate.
      + injection Hnorm as ->. apply Hn0. vm_compute in Hv. congruence.
      + apply (DecimalFacts.nzhead_nonzero u u0). exact En.  }
  rewrite E in *. cbn [num_acc] in Hv. rewrite Hd in Hv.
  apply num_acc_lower in Hv. cbn [List.length].
  assert (10 ^ lenN s < 10 ^ N.of_nat k) as Hlt by nia.
  apply N.pow_lt_mono_r_iff in Hlt; [|lia]. unfold lenN in Hlt. lia.
Qed.

Lemma length_hex_digits_up u : List.length (hex_digits_up u) = List.length (hex_digits u).
Proof. induction u; cbn; congruence. Qed.

Lemma length_hex_le k n : n < 16 ^ N.of_nat k -> (1 <= k)%nat -> (List.length (hex n) <= k)%nat.
Proof.
  intros Hn Hk.
  destruct (N.eq_dec n 0) as [->|Hn0]; [exact Hk|].
  pose proof (hex_num_hex n) as Hv. unfold hex_num in Hv.
  rewrite num_nonempty in Hv by apply hex_nonempty.
  pose proof (HexadecimalN.Unsigned.to_of (N.to_hex_uint n)) as Hu.
  rewrite HexadecimalN.Unsigned.of_to in Hu.
  unfold hex in *.
  remember (N.to_hex_uint n) as u eqn:Eu.
  assert (u = Hexadecimal.unorm u) as Hnorm by congruence. clear Hu.
  assert (exists c s d, hex_digits u = c :: s /\ digit_value 16 c = Some d /\ 1 <= d) as (c & s & d & E & Hd & Hd1).
  { destruct u; cbn [hex_digits];
      try (eexists _, _, _; split; [reflexivity|]; split; [vm_compute; reflexivity|vm_compute; discriminate]).
    - exfalso. revert Eu. apply not_eq_sym, N_to_hex_uint_nonnil.
    - exfalso. unfold Hexadecimal.unorm in Hnorm. cbn in Hnorm.
      destruct (Hexadecimal.nzhead u) eqn:En; try discriminate.
      + injection Hnorm as ->. apply Hn0. vm_compute in Hv. congruence.
      + apply (HexadecimalFacts.nzhead_nonzero u u0). exact En.  }
  rewrite E in *. cbn [num_acc] in Hv. rewrite Hd in Hv.
  apply num_acc_lower in Hv. cbn [List.length].
  assert (16 ^ lenN s < 16 ^ N.of_nat k) as Hlt by nia.
  apply N.pow_lt_mono_r_iff in Hlt; [|lia]. unfold lenN in Hlt. lia.
Qed.

Lemma length_hex_up n : List.length (hex_up n) = List.length (hex n).
Proof. apply length_hex_digits_up. Qed.

Lemma length_pad0 w s : List.length (pad0 w s) = Nat.max w (List.length s).
Proof. unfold pad0. rewrite app_length, repeat_length. lia. Qed.

Lemma length_pad0_dec k n : n < 10 ^ N.of_nat k -> (1 <= k)%nat ->
  List.length (pad0 k (dec n)) = k.
Proof. intros. rewrite length_pad0. pose proof (length_dec_le k n). lia. Qed.

Lemma length_pad0_hex k n : n < 16 ^ N.of_nat k -> (1 <= k)%nat ->
  List.length (pad0 k (hex n)) = k.
Proof. intros. rewrite length_pad0. pose proof (length_hex_le k n). lia. Qed.

Lemma length_pad0_hex_up k n : n < 16 ^ N.of_nat k -> (1 <= k)%nat ->
  List.length (pad0 k (hex_up n)) = k.
Proof. intros. rewrite length_pad0, length_hex_up. pose proof (length_hex_le k n). lia. Qed.

(** ** The characters of a numeral are digits *)
Definition is_digit (base : N) (c : byte) : Prop := exists v, digit_value base c = Some v.

Lemma num_acc_digits base acc s v : num_acc base acc s = Some v -> Forall (is_digit base) s.
Proof.
  revert acc; induction s as [|c s IH]; intros acc; cbn [num_acc]; [constructor|].
  destruct (digit_value base c) as [d|] eqn:E; [|discriminate].
  intros H. constructor; [exists d; exact E|eapply IH; exact H].
Qed.

Lemma num_digits base s v : num base s = Some v -> Forall (is_digit base) s.
Proof. destruct s; [discriminate|]. apply num_acc_digits. Qed.

Lemma dec_is_digit n : Forall (is_digit 10) (dec n).
Proof. eapply num_digits, dec_num_dec. Qed.
Lemma pad0_dec_is_digit w n : Forall (is_digit 10) (pad0 w (dec n)).
Proof. eapply num_digits, dec_num_pad0. Qed.
Lemma pad0_hex_is_digit w n : Forall (is_digit 16) (pad0 w (hex n)).
Proof. eapply num_digits, hex_num_pad0. Qed.

(** Two digit strings followed by a non-digit split the same way. *)
Lemma digits_split base (s1 s2 : bytes) c1 c2 t1 t2 :
  Forall (is_digit base) s1 -> Forall (is_digit base) s2 ->
  ~ is_digit base c1 -> ~ is_digit base c2 ->
  s1 ++ c1 :: t1 = s2 ++ c2 :: t2 -> s1 = s2 /\ c1 = c2 /\ t1 = t2.
Proof.
  intros H1; revert s2; induction H1 as [|d s1 Hd H1 IH]; intros s2 H2 Hc1 Hc2 E.
  - destruct H2 as [|e s2 He H2]; cbn in E.
    + injection E as -> ->. auto.
    + injection E as -> _. contradiction.
  - destruct H2 as [|e s2 He H2]; cbn in E.
    + injection E as -> _. contradiction.
    + injection E as -> E. apply IH in E; auto. destruct E as (-> & -> & ->). auto.
Qed.
