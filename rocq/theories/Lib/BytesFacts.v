From Coq Require Import List NArith ZArith Lia Bool.
From Coq Require Import ZifyBool ZifyNat ZifyN.
From Coq Require Import Strings.Byte.
From Verif Require Import Lib.Res Lib.Bytes.
Import ListNotations.
Ltac Zify.zify_post_hook ::= Z.div_mod_to_equations.
Local Open Scope N_scope.
Arguments N.add : simpl never.
Arguments N.mul : simpl never.
Arguments N.sub : simpl never.
Arguments N.div : simpl never.
Arguments N.modulo : simpl never.
Arguments N.pow : simpl never.
Arguments N.pred : simpl never.

Lemma b2n_lt b : b2n b < 256.
Proof. unfold b2n. pose proof (Byte.to_N_bounded b). lia. Qed.

Lemma n2b_b2n b : n2b (b2n b) = b.
Proof. destruct b; reflexivity. Qed.

Lemma b2n_n2b n : b2n (n2b n) = n mod 256.
Proof.
  unfold b2n, n2b.
  destruct (Byte.of_N (n mod 256)) as [b|] eqn:E.
  - apply Byte.to_of_N in E. exact E.
  - apply Byte.of_N_None_iff in E. lia.
Qed.

Lemma b2n_inj a b : b2n a = b2n b -> a = b.
Proof. intros H. rewrite <- (n2b_b2n a), <- (n2b_b2n b), H. reflexivity. Qed.

Lemma byte_eqb_eq a b : byte_eqb a b = true <-> a = b.
Proof. unfold byte_eqb. split; intros H.
  - apply Byte.byte_dec_bl; exact H.
  - apply Byte.byte_dec_lb; exact H. Qed.

Lemma byte_eqb_refl a : byte_eqb a a = true.
Proof. apply byte_eqb_eq; reflexivity. Qed.

Lemma byte_eqb_neq a b : byte_eqb a b = false <-> a <> b.
Proof. destruct (byte_eqb a b) eqn:E.
  - apply byte_eqb_eq in E. split; congruence.
  - split; [|reflexivity]. intros _ H. apply byte_eqb_eq in H. congruence. Qed.

Lemma bytes_eqb_eq a b : bytes_eqb a b = true <-> a = b.
Proof.
  revert b; induction a as [|x a IH]; destruct b as [|y b]; simpl;
    try (split; [discriminate|congruence]); try tauto.
  rewrite andb_true_iff, byte_eqb_eq, IH.
  split; [intros [-> ->]; reflexivity| intros H; inversion H; auto].
Qed.

Lemma bytes_eqb_refl a : bytes_eqb a a = true.
Proof. apply bytes_eqb_eq; reflexivity. Qed.

(** ** Indexing *)

Lemma lenN_nil {A} : lenN (@nil A) = 0. Proof. reflexivity. Qed.
Lemma lenN_cons {A} (x : A) l : lenN (x :: l) = lenN l + 1.
Proof. unfold lenN; simpl List.length. lia. Qed.
Lemma lenN_app {A} (l m : list A) : lenN (l ++ m) = lenN l + lenN m.
Proof. unfold lenN; rewrite app_length. lia. Qed.
Lemma lenN_map {A C} (f : A -> C) l : lenN (map f l) = lenN l.
Proof. unfold lenN; rewrite map_length. reflexivity. Qed.
Lemma lenN_0 {A} (l : list A) : lenN l = 0 <-> l = [].
Proof. destruct l; unfold lenN; simpl; split; intros; try lia; try congruence. Qed.

Lemma lenN_repeatN {A} (x : A) n : lenN (repeatN x n) = n.
Proof. unfold lenN, repeatN. rewrite repeat_length. apply N2Nat.id. Qed.
Lemma nthN_nth_error {A} (l : list A) i : nthN l i = nth_error l (N.to_nat i).
Proof.
  revert i; induction l as [|x l IH]; intros i; cbn [nthN].
  - destruct (N.to_nat i); reflexivity.
  - destruct (N.eqb_spec i 0) as [->|Hi]; [reflexivity|].
    rewrite IH. replace (N.to_nat i) with (S (N.to_nat (N.pred i))) by lia. reflexivity.
Qed.

Lemma nthN_Some_lt {A} (l : list A) i x : nthN l i = Some x -> i < lenN l.
Proof.
  rewrite nthN_nth_error. intros H.
  assert (nth_error l (N.to_nat i) <> None) as Hn by congruence.
  apply nth_error_Some in Hn. unfold lenN. lia.
Qed.

Lemma nthN_None {A} (l : list A) i : nthN l i = None <-> lenN l <= i.
Proof. rewrite nthN_nth_error, nth_error_None. unfold lenN. lia. Qed.

Lemma nthN_lt {A} (l : list A) i : i < lenN l -> exists x, nthN l i = Some x.
Proof.
  intros H. destruct (nthN l i) eqn:E; eauto. apply nthN_None in E. lia.
Qed.

Lemma nthN_app1 {A} (l m : list A) i : i < lenN l -> nthN (l ++ m) i = nthN l i.
Proof. intros H. rewrite !nthN_nth_error. apply nth_error_app1. unfold lenN in H. lia. Qed.

Lemma nthN_app2 {A} (l m : list A) i : lenN l <= i -> nthN (l ++ m) i = nthN m (i - lenN l).
Proof. intros H. rewrite !nthN_nth_error, nth_error_app2 by (unfold lenN in H; lia).
  f_equal. unfold lenN in *. lia. Qed.

Lemma takeN_firstn {A} n (l : list A) : takeN n l = firstn (N.to_nat n) l.
Proof.
  revert n; induction l as [|x l IH]; intros n; cbn [takeN].
  - rewrite firstn_nil. reflexivity.
  - destruct (N.eqb_spec n 0) as [->|Hi]; [reflexivity|].
    rewrite IH. replace (N.to_nat n) with (S (N.to_nat (N.pred n))) by lia. reflexivity.
Qed.

Lemma dropN_skipn {A} n (l : list A) : dropN n l = skipn (N.to_nat n) l.
Proof.
  revert n; induction l as [|x l IH]; intros n; cbn [dropN].
  - rewrite skipn_nil. reflexivity.
  - destruct (N.eqb_spec n 0) as [->|Hi]; [reflexivity|].
    rewrite IH. replace (N.to_nat n) with (S (N.to_nat (N.pred n))) by lia. reflexivity.
Qed.

Lemma lenN_takeN {A} n (l : list A) : lenN (takeN n l) = N.min n (lenN l).
Proof. rewrite takeN_firstn. unfold lenN. rewrite firstn_length. lia. Qed.
Lemma lenN_dropN {A} n (l : list A) : lenN (dropN n l) = lenN l - n.
Proof. rewrite dropN_skipn. unfold lenN. rewrite skipn_length. lia. Qed.
Lemma takeN_0 {A} (l : list A) : takeN 0 l = [].
Proof. destruct l; reflexivity. Qed.
Lemma dropN_0 {A} (l : list A) : dropN 0 l = l.
Proof. destruct l; reflexivity. Qed.
Lemma takeN_all {A} n (l : list A) : lenN l <= n -> takeN n l = l.
Proof. intros H. rewrite takeN_firstn. apply firstn_all2. unfold lenN in H. lia. Qed.
Lemma dropN_all {A} n (l : list A) : lenN l <= n -> dropN n l = [].
Proof. intros H. rewrite dropN_skipn. apply skipn_all2. unfold lenN in H. lia. Qed.
Lemma takeN_dropN {A} n (l : list A) : takeN n l ++ dropN n l = l.
Proof. rewrite takeN_firstn, dropN_skipn. apply firstn_skipn. Qed.
Lemma takeN_app1 {A} n (l m : list A) : n <= lenN l -> takeN n (l ++ m) = takeN n l.
Proof. intros H. rewrite !takeN_firstn, firstn_app.
  replace (N.to_nat n - length l)%nat with 0%nat by (unfold lenN in H; lia).
  simpl. apply app_nil_r. Qed.
Lemma takeN_app_exact {A} (l m : list A) : takeN (lenN l) (l ++ m) = l.
Proof. rewrite takeN_app1 by lia. apply takeN_all. lia. Qed.
Lemma dropN_app_exact {A} (l m : list A) : dropN (lenN l) (l ++ m) = m.
Proof. rewrite dropN_skipn. unfold lenN. rewrite Nat2N.id.
  rewrite skipn_app, skipn_all, Nat.sub_diag. reflexivity. Qed.
Lemma dropN_app1 {A} n (l m : list A) : n <= lenN l -> dropN n (l ++ m) = dropN n l ++ m.
Proof. intros H. rewrite !dropN_skipn, skipn_app.
  replace (N.to_nat n - length l)%nat with 0%nat by (unfold lenN in H; lia).
  reflexivity. Qed.
Lemma skipn_add {A} a b (l : list A) : skipn a (skipn b l) = skipn (b + a) l.
Proof. revert l; induction b as [|b IH]; intros l; [reflexivity|].
  destruct l as [|x l]; cbn [skipn Nat.add]; [apply skipn_nil|apply IH]. Qed.
Lemma dropN_dropN {A} a b (l : list A) : dropN a (dropN b l) = dropN (b + a) l.
Proof. rewrite !dropN_skipn, skipn_add. f_equal. lia. Qed.
Lemma takeN_takeN {A} a b (l : list A) : takeN a (takeN b l) = takeN (N.min a b) l.
Proof. rewrite !takeN_firstn, firstn_firstn. f_equal. lia. Qed.
Lemma takeN_dropN_comm {A} a b (l : list A) : takeN a (dropN b l) = dropN b (takeN (b + a) l).
Proof. rewrite !takeN_firstn, !dropN_skipn, skipn_firstn_comm. f_equal. lia. Qed.
Lemma nthN_dropN {A} (l : list A) n i : nthN (dropN n l) i = nthN l (n + i).
Proof.
  rewrite dropN_skipn, !nthN_nth_error.
  replace (N.to_nat (n + i)) with (N.to_nat n + N.to_nat i)%nat by lia.
  generalize (N.to_nat n) as k; generalize (N.to_nat i) as j; clear.
  intros j k; revert l; induction k as [|k IH]; intros l; [reflexivity|].
  destruct l as [|x l]; simpl; [destruct j; reflexivity|apply IH].
Qed.
Lemma nthN_takeN {A} (l : list A) n i : i < n -> nthN (takeN n l) i = nthN l i.
Proof.
  intros H. rewrite <- (takeN_dropN n l) at 2.
  destruct (N.lt_ge_cases i (lenN (takeN n l))) as [Hi|Hi].
  - rewrite nthN_app1 by assumption. reflexivity.
  - rewrite nthN_app2 by assumption.
    rewrite (proj2 (nthN_None _ _) Hi). symmetry. apply nthN_None.
    rewrite lenN_takeN in Hi. rewrite lenN_dropN, lenN_takeN. lia.
Qed.

Lemma dropN_cons_nth {A} (l : list A) i x :
  nthN l i = Some x -> dropN i l = x :: dropN (i + 1) l.
Proof.
  revert i; induction l as [|y l IH]; intros i H; cbn [nthN dropN] in H |- *; [discriminate|].
  destruct (N.eqb_spec (i + 1) 0) as [E1|_]; [lia|].
  destruct (N.eqb_spec i 0) as [E|Hi].
  - inversion H; subst. change (N.pred (0 + 1)) with 0. rewrite dropN_0. reflexivity.
  - rewrite (IH _ H). f_equal. f_equal. lia.
Qed.

Lemma takeN_S_nth {A} (l : list A) i x :
  nthN l i = Some x -> takeN (i + 1) l = takeN i l ++ [x].
Proof.
  revert i; induction l as [|y l IH]; intros i H; cbn [nthN takeN] in H |- *; [discriminate|].
  destruct (N.eqb_spec (i + 1) 0) as [E1|_]; [lia|].
  destruct (N.eqb_spec i 0) as [E|Hi].
  - inversion H; subst. change (N.pred (0 + 1)) with 0. rewrite takeN_0. reflexivity.
  - replace (N.pred (i + 1)) with (N.pred i + 1) by lia. rewrite (IH _ H). reflexivity.
Qed.

(** ** Reads *)

Lemma rd_lt buf i : i < lenN buf -> exists b, rd buf i = Ok (b2n b) /\ nthN buf i = Some b.
Proof. intros H. destruct (nthN_lt buf i H) as [b Hb]. exists b. unfold rd. rewrite Hb. auto. Qed.
Lemma rd_ge buf i : lenN buf <= i -> rd buf i = UB.
Proof. intros H. unfold rd. rewrite (proj2 (nthN_None buf i) H). reflexivity. Qed.

Lemma slice_ok buf off n : off + n <= lenN buf ->
  slice buf off n = Ok (takeN n (dropN off buf)).
Proof. intros H. unfold slice. destruct (N.leb_spec (off + n) (lenN buf)); [reflexivity|lia]. Qed.
Lemma slice_ub buf off n : lenN buf < off + n -> slice buf off n = UB.
Proof. intros H. unfold slice. destruct (N.leb_spec (off + n) (lenN buf)); [lia|reflexivity]. Qed.
Lemma slice_inv buf off n s : slice buf off n = Ok s ->
  off + n <= lenN buf /\ s = takeN n (dropN off buf) /\ lenN s = n.
Proof.
  unfold slice. destruct (N.leb_spec (off + n) (lenN buf)) as [H|H]; [|discriminate].
  intros E; inversion E; subst. split; [assumption|]. split; [reflexivity|].
  rewrite lenN_takeN, lenN_dropN. lia.
Qed.

(** ** Byte order *)

Lemma le_bound l : le l < 256 ^ lenN l.
Proof.
  induction l as [|b l IH]; cbn [le].
  - reflexivity.
  - rewrite lenN_cons, N.pow_add_r, N.pow_1_r. pose proof (b2n_lt b). nia.
Qed.

Lemma be_acc_app acc l m : be_acc acc (l ++ m) = be_acc (be_acc acc l) m.
Proof. revert acc; induction l as [|b l IH]; intros acc; cbn [be_acc app]; auto. Qed.

Lemma be_rev l : be (rev l) = le l.
Proof.
  unfold be. induction l as [|b l IH]; cbn [rev le]; [reflexivity|].
  rewrite be_acc_app, IH. cbn [be_acc]. lia.
Qed.

Lemma le_rev l : le (rev l) = be l.
Proof. rewrite <- be_rev, rev_involutive. reflexivity. Qed.

Lemma be_bound l : be l < 256 ^ lenN l.
Proof. rewrite <- le_rev. pose proof (le_bound (rev l)). unfold lenN in *. rewrite rev_length in H. exact H. Qed.

Lemma le_app l m : le (l ++ m) = le l + 256 ^ lenN l * le m.
Proof.
  induction l as [|b l IH]; cbn [le app].
  - change (256 ^ lenN (@nil byte)) with 1. lia.
  - rewrite IH, lenN_cons, N.pow_add_r, N.pow_1_r. lia.
Qed.

Lemma length_to_le k n : List.length (to_le k n) = k.
Proof. revert n; induction k as [|k IH]; intros n; cbn [to_le List.length]; congruence. Qed.

Lemma lenN_to_le k n : lenN (to_le k n) = N.of_nat k.
Proof. unfold lenN. rewrite length_to_le. reflexivity. Qed.

Lemma le_to_le k n : le (to_le k n) = n mod 256 ^ N.of_nat k.
Proof.
  revert n; induction k as [|k IH]; intros n; cbn [to_le le].
  - change (256 ^ N.of_nat 0) with 1. rewrite N.mod_1_r. reflexivity.
  - rewrite IH, b2n_n2b. rewrite Nat2N.inj_succ, N.pow_succ_r'.
    assert (256 ^ N.of_nat k <> 0) as Hk by (apply N.pow_nonzero; lia).
    symmetry. apply N.mod_mul_r; [discriminate|exact Hk].
Qed.

Lemma le_to_le_id k n : n < 256 ^ N.of_nat k -> le (to_le k n) = n.
Proof. intros H. rewrite le_to_le. apply N.mod_small; assumption. Qed.

Lemma to_le_le l : to_le (List.length l) (le l) = l.
Proof.
  induction l as [|b l IH]; cbn [List.length to_le le]; [reflexivity|].
  pose proof (b2n_lt b) as Hb.
  replace ((b2n b + 256 * le l) / 256) with (le l) by lia.
  rewrite IH. f_equal. apply b2n_inj. rewrite b2n_n2b. lia.
Qed.

Lemma le_inj l m : List.length l = List.length m -> le l = le m -> l = m.
Proof. intros Hl H. rewrite <- (to_le_le l), <- (to_le_le m), H, Hl. reflexivity. Qed.

(** ** Shifts and masks as arithmetic *)

Lemma lor_shiftl_add a b k : b < 2 ^ k -> N.lor (N.shiftl a k) b = a * 2 ^ k + b.
Proof.
  intros H. rewrite N.shiftl_mul_pow2.
  assert (N.land (a * 2 ^ k) b = 0) as Hz.
  { apply N.bits_inj_0. intros n. rewrite N.land_spec.
    destruct (N.lt_ge_cases n k) as [Hn|Hn].
    - rewrite N.mul_pow2_bits_low by assumption. reflexivity.
    - replace (N.testbit b n) with false; [apply andb_false_r|].
      symmetry. destruct (N.eq_dec b 0) as [->|Hb]; [apply N.bits_0|].
      apply N.bits_above_log2. apply N.log2_lt_pow2; [lia|].
      eapply N.lt_le_trans; [exact H|]. apply N.pow_le_mono_r; lia. }
  rewrite <- N.lxor_lor by assumption. rewrite N.add_nocarry_lxor by assumption. reflexivity.
Qed.

Lemma lor_comm_shiftl_add a b k : b < 2 ^ k -> N.lor b (N.shiftl a k) = a * 2 ^ k + b.
Proof. intros H. rewrite N.lor_comm. apply lor_shiftl_add; assumption. Qed.

Lemma land_ones_mod a k : N.land a (N.ones k) = a mod 2 ^ k.
Proof. apply N.land_ones. Qed.

(** ** Every byte, by computation *)
Definition all_bytes : list byte :=
  map (fun n => n2b (N.of_nat n)) (seq 0 256).

Lemma all_bytes_in b : In b all_bytes.
Proof.
  unfold all_bytes. apply in_map_iff. exists (N.to_nat (b2n b)). split.
  - rewrite N2Nat.id. apply n2b_b2n.
  - apply in_seq. pose proof (b2n_lt b). lia.
Qed.

Lemma forall_bytes (P : byte -> bool) : forallb P all_bytes = true -> forall b, P b = true.
Proof. intros H b. eapply forallb_forall; [exact H|apply all_bytes_in]. Qed.
