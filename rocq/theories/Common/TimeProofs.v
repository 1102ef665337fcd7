(** Proofs about durations and file times. *)
From Coq Require Import List NArith ZArith Bool Lia Strings.String.
From Coq Require Import ZifyBool ZifyNat ZifyN.
From Verif Require Import Lib.Res Lib.Bytes Lib.BytesFacts Lib.Text Lib.NumSpec Lib.NumFacts
     Common.Model Common.Spec.
Import ListNotations.
Local Open Scope N_scope.
Ltac Zify.zify_post_hook ::= Z.div_mod_to_equations.

(** ** Durations *)
Lemma dec2 n : n < 100 -> List.length (pad0 2 (dec n)) = 2%nat /\ dec_num (pad0 2 (dec n)) = Some n.
Proof. intros H. split; [apply length_pad0_dec; [exact H|lia]|apply dec_num_pad0]. Qed.
Lemma dec3 n : n < 1000 -> List.length (pad0 3 (dec n)) = 3%nat /\ dec_num (pad0 3 (dec n)) = Some n.
Proof. intros H. split; [apply length_pad0_dec; [exact H|lia]|apply dec_num_pad0]. Qed.

Lemma num_acc_app base s t acc v : num_acc base acc s = Some v ->
  num_acc base acc (s ++ t) = num_acc base v t.
Proof.
  revert acc; induction s as [|c s IH]; intros acc; cbn [num_acc app].
  - intros [= ->]. reflexivity.
  - destruct (digit_value base c) as [d|]; [|discriminate]. apply IH.
Qed.

Lemma num_acc_shift base s acc v : num_acc base 0 s = Some v ->
  num_acc base acc s = Some (acc * base ^ lenN s + v).
Proof.
  assert (forall s acc v, num_acc base 0 s = Some v ->
          num_acc base acc s = Some (acc * base ^ lenN s + v)) as H; [|apply H].
  clear. intros s. induction s as [|c s IH] using rev_ind; intros acc v.
  - cbn. intros [= <-]. change (lenN (@nil byte)) with 0. rewrite N.pow_0_r. f_equal. lia.
  - intros Hv.
    destruct (num_acc base 0 s) as [w|] eqn:Ew.
    + rewrite (num_acc_app _ _ _ _ _ Ew) in Hv.
      rewrite (num_acc_app _ _ _ _ _ (IH acc w eq_refl)).
      cbn [num_acc] in Hv |- *. destruct (digit_value base c) as [d|]; [|discriminate].
      injection Hv as <-. f_equal. rewrite lenN_app.
      change (lenN [c]) with 1. rewrite N.pow_add_r, N.pow_1_r. lia.
    + exfalso. clear IH.
      assert (forall acc, num_acc base acc s = None -> num_acc base acc (s ++ [c]) = None) as K.
      { clear. induction s as [|x s IH]; intros acc; cbn [num_acc app]; [discriminate|].
        destruct (digit_value base x); [apply IH|reflexivity]. }
      rewrite K in Hv by exact Ew. discriminate.
Qed.

Lemma dec_num_app s t a b : dec_num s = Some a -> dec_num t = Some b ->
  dec_num (s ++ t) = Some (a * 10 ^ lenN t + b).
Proof.
  unfold dec_num. intros Hs Ht.
  assert (s <> []) by (destruct s; [discriminate Hs|congruence]).
  assert (t <> []) by (destruct t; [discriminate Ht|congruence]).
  rewrite num_nonempty in Hs by assumption.
  rewrite num_nonempty in Ht by assumption.
  rewrite num_nonempty by (destruct s; cbn; congruence).
  rewrite (num_acc_app _ _ _ _ _ Hs). apply num_acc_shift. exact Ht.
Qed.

Lemma displayDuration_text ft : duration_text (displayDuration ft) (ft / 10).
Proof.
  unfold displayDuration.
  set (us := ft / 10). clearbody us.
  set (h := us / 1000 / 1000 / 60 / 60).
  set (m := us / 1000 / 1000 / 60 - h * 60).
  set (s := us / 1000 / 1000 - us / 1000 / 1000 / 60 * 60).
  set (ms := us / 1000 - us / 1000 / 1000 * 1000).
  set (mic := us - us / 1000 * 1000).
  assert (m < 60 /\ s < 60 /\ ms < 1000 /\ mic < 1000 /\
          us = ((h * 60 + m) * 60 + s) * 1000000 + (ms * 1000 + mic)) as (Hm & Hs & Hms & Hmic & Hus).
  { subst h m s ms mic. lia. }
  clearbody h m s ms mic.
  destruct (dec2 m) as [Lm Vm]; [lia|]. destruct (dec2 s) as [Ls Vs]; [lia|].
  destruct (dec3 ms) as [Lms Vms]; [lia|]. destruct (dec3 mic) as [Lmic Vmic]; [lia|].
  assert ((2 <= List.length (pad0 2 (dec h)))%nat) as Lh by (rewrite length_pad0; lia).
  pose proof (dec_num_pad0 2 h) as Vh.
  destruct ((0 <? ms) || (0 <? mic)) eqn:E.
  - replace us with (((h * 60 + m) * 60 + s) * 1000000 + (ms * 1000 + mic)) by lia.
    apply (dt_frac _ _ _ (pad0 3 (dec ms) ++ pad0 3 (dec mic))); auto; try lia.
    + rewrite app_length. lia.
    + rewrite (dec_num_app _ _ _ _ Vms Vmic). unfold lenN. rewrite Lmic. reflexivity.
  - rewrite app_nil_r.
    replace us with (((h * 60 + m) * 60 + s) * 1000000) by lia.
    apply dt_whole; auto.
Qed.

Lemma not_digit_colon : ~ is_digit 10 colon. Proof. intros [v H]. discriminate H. Qed.
Lemma not_digit_dash : ~ is_digit 10 dash. Proof. intros [v H]. discriminate H. Qed.

Lemma app_eq_length {A} (a b c d : list A) : List.length a = List.length c ->
  a ++ b = c ++ d -> a = c /\ b = d.
Proof.
  revert c; induction a as [|x a IH]; intros [|y c] HL E; cbn in *; try discriminate; auto.
  injection E as -> E. injection HL as HL. destruct (IH c HL E) as [-> ->]. auto.
Qed.

Lemma duration_text_fun t a b : duration_text t a -> duration_text t b -> a = b.
Proof.
  intros H H'.
  destruct H as [hh mm ss h m s Lh Lm Ls Vh Vm Vs Bm Bs|hh mm ss ff h m s f Lh Lm Ls Lf Vh Vm Vs Vf Bm Bs Bf];
  inversion H' as [hh' mm' ss' h' m' s' Lh' Lm' Ls' Vh' Vm' Vs' Bm' Bs' Et|hh' mm' ss' ff' h' m' s' f' Lh' Lm' Ls' Lf' Vh' Vm' Vs' Vf' Bm' Bs' Bf' Et];
  subst; cbn [app] in Et;
  (apply (digits_split 10) in Et;
   [|eapply num_digits; eassumption|eapply num_digits; eassumption|apply not_digit_colon|apply not_digit_colon]);
  destruct Et as (-> & _ & Et);
  (apply app_eq_length in Et; [|congruence]); destruct Et as (-> & Et);
  injection Et as Et.
  - congruence.
  - exfalso. apply (f_equal (@List.length byte)) in Et. rewrite app_length in Et. cbn in Et. lia.
  - exfalso. apply (f_equal (@List.length byte)) in Et. rewrite app_length in Et. cbn in Et. lia.
  - apply app_eq_length in Et; [|congruence]. destruct Et as (-> & [= ->]). congruence.
Qed.

(** ** Calendar *)
Definition shift400 (d : N * N * N) : N * N * N := let '(y, m, d) := d in (y + 400, m, d).

Lemma civil_period n : civil_from_days (n + 146097) = shift400 (civil_from_days n).
Proof.
  unfold civil_from_days, shift400.
  replace ((n + 146097 + 719468) / 146097) with ((n + 719468) / 146097 + 1) by lia.
  set (era := (n + 719468) / 146097).
  replace (n + 146097 + 719468 - (era + 1) * 146097) with (n + 719468 - era * 146097) by lia.
  cbv zeta. f_equal. f_equal. lia.
Qed.

Lemma leap_period y : leap (y + 400) = leap y.
Proof.
  unfold leap.
  replace ((y + 400) mod 4) with (y mod 4) by lia.
  replace ((y + 400) mod 100) with (y mod 100) by lia.
  replace ((y + 400) mod 400) with (y mod 400) by lia. reflexivity.
Qed.

Lemma next_day_period d : next_day (shift400 d) = shift400 (next_day d).
Proof.
  destruct d as [[y m] d]. unfold next_day, shift400, month_length. rewrite leap_period.
  destruct (d <? _); [reflexivity|]. destruct (m <? 12); [reflexivity|].
  f_equal. f_equal. lia.
Qed.

(** One full 400-year cycle, decided by computation. *)
Definition date_eqb (a b : N * N * N) : bool :=
  let '(y, m, d) := a in let '(y', m', d') := b in (y =? y') && (m =? m') && (d =? d').

Definition step_ok (n : N) : bool := date_eqb (civil_from_days (n + 1)) (next_day (civil_from_days n)).

Fixpoint sweep (fuel : positive) (n : N) : bool * N :=
  match fuel with
  | xH => (step_ok n, n + 1)
  | xO p => let '(a, n1) := sweep p n in if a then sweep p n1 else (false, n1)
  | xI p => let '(a, n1) := sweep p n in
            if a then let '(b, n2) := sweep p n1 in if b then (step_ok n2, n2 + 1) else (false, n2)
            else (false, n1)
  end.

Lemma sweep_spec p n : fst (sweep p n) = true ->
  snd (sweep p n) = n + Npos p /\ forall i, i < Npos p -> step_ok (n + i) = true.
Proof.
  revert n; induction p as [p IH|p IH|]; intros n; cbn [sweep].
  - destruct (sweep p n) as [a n1] eqn:E1. destruct a; [|discriminate].
    destruct (sweep p n1) as [b n2] eqn:E2. destruct b; [|discriminate].
    cbn [fst snd]. intros H3.
    pose proof (IH n) as K1. rewrite E1 in K1. destruct (K1 eq_refl) as [S1 F1]. cbn [snd] in S1.
    pose proof (IH n1) as K2. rewrite E2 in K2. destruct (K2 eq_refl) as [S2 F2]. cbn [snd] in S2.
    split; [lia|]. intros i Hi.
    destruct (N.lt_ge_cases i (Npos p)) as [H|H]; [apply F1; exact H|].
    destruct (N.lt_ge_cases i (Npos p + Npos p)) as [H'|H'].
    + replace (n + i) with (n1 + (i - Npos p)) by lia. apply F2. lia.
    + replace (n + i) with n2 by lia. exact H3.
  - destruct (sweep p n) as [a n1] eqn:E1. destruct a; [|discriminate].
    intros H2.
    pose proof (IH n) as K1. rewrite E1 in K1. destruct (K1 eq_refl) as [S1 F1]. cbn [snd] in S1.
    destruct (IH n1 H2) as [S2 F2].
    split; [lia|]. intros i Hi.
    destruct (N.lt_ge_cases i (Npos p)) as [H|H]; [apply F1; exact H|].
    replace (n + i) with (n1 + (i - Npos p)) by lia. apply F2. lia.
  - cbn [fst snd]. intros H. split; [reflexivity|]. intros i Hi.
    replace (n + i) with n by lia. exact H.
Qed.

Lemma date_eqb_eq a b : date_eqb a b = true -> a = b.
Proof. destruct a as [[y m] d], b as [[y' m'] d']. unfold date_eqb. intros H.
  f_equal; [f_equal|]; lia. Qed.

Lemma civil_cycle n : n < 146097 -> civil_from_days (n + 1) = next_day (civil_from_days n).
Proof.
  intros H. apply date_eqb_eq. change (step_ok n = true).
  assert (fst (sweep 146097 0) = true) as S by (vm_compute; reflexivity).
  apply sweep_spec in S. destruct S as [_ F]. specialize (F n). rewrite N.add_0_l in F.
  apply F. exact H.
Qed.

Lemma civil_step n : civil_from_days (n + 1) = next_day (civil_from_days n).
Proof.
  rewrite (N.div_mod n 146097) by lia.
  assert (forall k r, r < 146097 -> civil_from_days (146097 * k + r + 1) = next_day (civil_from_days (146097 * k + r))) as H.
  { intros k. induction k as [|k IH] using N.peano_ind; intros r Hr.
    - rewrite N.mul_0_r, N.add_0_l. apply civil_cycle. exact Hr.
    - replace (146097 * N.succ k + r + 1) with (146097 * k + r + 1 + 146097) by lia.
      replace (146097 * N.succ k + r) with (146097 * k + r + 146097) by lia.
      rewrite !civil_period, next_day_period, IH by exact Hr. reflexivity. }
  apply H. lia.
Qed.

Lemma date_of_day_succ n : date_of_day (N.succ n) = next_day (date_of_day n).
Proof. unfold date_of_day. rewrite N.iter_succ. reflexivity. Qed.

Lemma civil_date n : civil_from_days n = date_of_day n.
Proof.
  induction n as [|n IH] using N.peano_ind; [reflexivity|].
  rewrite date_of_day_succ, <- IH, <- civil_step. f_equal. lia.
Qed.

(** Dates are valid and strictly increase. *)
Definition valid_date (d : N * N * N) : Prop :=
  let '(y, m, d) := d in 1970 <= y /\ 1 <= m <= 12 /\ 1 <= d <= month_length y m.

Lemma month_length_bound y m : 28 <= month_length y m <= 31.
Proof. unfold month_length. destruct (m =? 2), (leap y), ((m =? 4) || (m =? 6) || (m =? 9) || (m =? 11)); lia. Qed.

Lemma valid_next d : valid_date d -> valid_date (next_day d).
Proof.
  destruct d as [[y m] d]. unfold valid_date, next_day. intros (Hy & Hm & Hd).
  destruct (N.ltb_spec d (month_length y m)); [lia|].
  pose proof (month_length_bound y (m + 1)). pose proof (month_length_bound (y + 1) 1).
  destruct (N.ltb_spec m 12); lia.
Qed.

Lemma valid_date_of_day n : valid_date (date_of_day n).
Proof.
  induction n as [|n IH] using N.peano_ind.
  - vm_compute. intuition discriminate.
  - rewrite date_of_day_succ. apply valid_next. exact IH.
Qed.

Definition date_key (d : N * N * N) : N := let '(y, m, d) := d in (y * 16 + m) * 32 + d.

Lemma key_next d : valid_date d -> date_key d < date_key (next_day d).
Proof.
  destruct d as [[y m] d]. unfold valid_date, next_day, date_key. intros (Hy & Hm & Hd).
  pose proof (month_length_bound y m).
  destruct (N.ltb_spec d (month_length y m)); [lia|]. destruct (N.ltb_spec m 12); lia.
Qed.

Lemma key_mono a b : a < b -> date_key (date_of_day a) < date_key (date_of_day b).
Proof.
  intros H. replace b with (a + 1 + (b - a - 1)) by lia.
  generalize (b - a - 1). clear H. intros k. induction k as [|k IH] using N.peano_ind.
  - rewrite N.add_0_r, N.add_1_r, date_of_day_succ. apply key_next, valid_date_of_day.
  - replace (a + 1 + N.succ k) with (N.succ (a + 1 + k)) by lia.
    rewrite date_of_day_succ. eapply N.lt_trans; [exact IH|]. apply key_next, valid_date_of_day.
Qed.

Lemma date_of_day_inj a b : date_of_day a = date_of_day b -> a = b.
Proof.
  intros E. destruct (N.lt_trichotomy a b) as [H|[H|H]]; [|exact H|];
    apply key_mono in H; rewrite E in H; lia.
Qed.

(** ** FileTimeToString *)
Lemma strftime_shows t : shows_second (strftime_FT (gmtime t)) t.
Proof.
  unfold shows_second, gmtime. rewrite civil_date.
  pose proof (valid_date_of_day (t / 86400)) as V.
  destruct (date_of_day (t / 86400)) as [[y m] d]. destruct V as (Hy & Hm & Hd).
  pose proof (month_length_bound y m).
  unfold strftime_FT. cbn [tm_year tm_mon tm_day tm_hour tm_min tm_sec].
  set (s := t mod 86400). assert (s < 86400) by (subst s; lia). clearbody s.
  replace s with ((s / 3600 * 60 + s / 60 mod 60) * 60 + s mod 60) at 4 by lia.
  destruct (dec2 m), (dec2 d), (dec2 (s / 3600)), (dec2 (s / 60 mod 60)), (dec2 (s mod 60)); try lia.
  apply ts; auto; try lia.
  - destruct (Nat.le_gt_cases 4 (List.length (dec y))) as [|L]; [assumption|exfalso].
    assert (dec_num (dec y) = Some y) as Vy by apply dec_num_dec.
    unfold dec_num in Vy. rewrite num_nonempty in Vy by apply dec_nonempty.
    assert (forall s acc v, num_acc 10 acc s = Some v -> v < (acc + 1) * 10 ^ lenN s) as K.
    { clear. induction s as [|c s IH]; intros acc v; cbn [num_acc].
      - intros [= <-]. change (lenN (@nil byte)) with 0. rewrite N.pow_0_r. lia.
      - destruct (digit_value 10 c) as [x|] eqn:E; [|discriminate]. intros K%IH.
        assert (x < 10).
        { unfold digit_value in E. match type of E with (if ?v <? _ then _ else _) = _ => destruct (N.ltb_spec v 10) end; [congruence|discriminate]. }
        rewrite lenN_cons, N.pow_add_r, N.pow_1_r.
        assert (0 < 10 ^ lenN s) by (apply N.neq_0_lt_0, N.pow_nonzero; lia). nia. }
    apply K in Vy. assert (10 ^ lenN (dec y) <= 10 ^ 3) by (apply N.pow_le_mono_r; unfold lenN; lia).
    change (10 ^ 3) with 1000 in *. lia.
  - apply dec_num_dec.
Qed.

Lemma timestamp_text_fun x d s d' s' :
  timestamp_text x d s -> timestamp_text x d' s' -> d = d' /\ s = s'.
Proof.
  intros H H'. destruct H. inversion H' as [yy' mo' dd' hh' mi' ss' y' m' d1' h' i' s1' L1 L2 L3 L4 L5 L6 V1 V2 V3 V4 V5 V6 B1 B2 B3 Et].
  subst. cbn [app] in Et.
  apply (digits_split 10) in Et;
   [|eapply num_digits; eassumption|eapply num_digits; eassumption|apply not_digit_dash|apply not_digit_dash].
  destruct Et as (-> & _ & Et).
  apply app_eq_length in Et; [|congruence]. destruct Et as (-> & [= Et]).
  apply app_eq_length in Et; [|congruence]. destruct Et as (-> & [= Et]).
  apply app_eq_length in Et; [|congruence]. destruct Et as (-> & [= Et]).
  apply app_eq_length in Et; [|congruence]. destruct Et as (-> & [= ->]).
  split; congruence.
Qed.

Lemma shows_second_fun x t t' : shows_second x t -> shows_second x t' -> t = t'.
Proof.
  unfold shows_second. intros H H'.
  destruct (timestamp_text_fun _ _ _ _ _ H H') as [E1 E2].
  apply date_of_day_inj in E1. lia.
Qed.

Lemma convertFILETIME_after ft : ft < 2 ^ 64 -> unix_epoch_ticks <= ft ->
  convertFILETIME ft = Z.of_N ((ft - unix_epoch_ticks) / 10000000).
Proof.
  unfold unix_epoch_ticks. intros H1 H2. unfold convertFILETIME, subw, signed.
  change (11644473600 mod 2 ^ 64) with 11644473600.
  change (2 ^ (64 - 1)) with 9223372036854775808. change (2 ^ 64) with 18446744073709551616 in *.
  replace ((ft / 10000000 + 18446744073709551616 - 11644473600) mod 18446744073709551616)
    with (ft / 10000000 - 11644473600) by lia.
  destruct (N.ltb_spec (ft / 10000000 - 11644473600) 9223372036854775808); lia.
Qed.

Lemma convertFILETIME_before ft : ft < unix_epoch_ticks -> (convertFILETIME ft <= 0)%Z.
Proof.
  unfold unix_epoch_ticks. intros H2. unfold convertFILETIME, subw, signed.
  change (11644473600 mod 2 ^ 64) with 11644473600.
  change (2 ^ (64 - 1)) with 9223372036854775808. change (2 ^ 64) with 18446744073709551616 in *.
  replace ((ft / 10000000 + 18446744073709551616 - 11644473600) mod 18446744073709551616)
    with (ft / 10000000 + 18446744073709551616 - 11644473600) by lia.
  destruct (N.ltb_spec (ft / 10000000 + 18446744073709551616 - 11644473600) 9223372036854775808); lia.
Qed.

Lemma FileTimeToString_after ft : ft < 2 ^ 64 -> unix_epoch_ticks + 10000000 <= ft ->
  shows_second (FileTimeToString ft) ((ft - unix_epoch_ticks) / 10000000).
Proof.
  intros H1 H2. unfold FileTimeToString. rewrite convertFILETIME_after by (unfold unix_epoch_ticks in *; lia).
  assert (1 <= (ft - unix_epoch_ticks) / 10000000) by (unfold unix_epoch_ticks in *; lia).
  destruct (Z.ltb_spec 0 (Z.of_N ((ft - unix_epoch_ticks) / 10000000))); [|lia].
  rewrite N2Z.id. apply strftime_shows.
Qed.

Lemma FileTimeToString_before ft : ft < 2 ^ 64 -> ft < unix_epoch_ticks + 10000000 ->
  FileTimeToString ft = B "1601-01-01 00:00:00".
Proof.
  intros H1 H2. unfold FileTimeToString.
  assert (convertFILETIME ft <= 0)%Z as H.
  { destruct (N.lt_ge_cases ft unix_epoch_ticks) as [K|K].
    - apply convertFILETIME_before. exact K.
    - rewrite convertFILETIME_after by assumption. unfold unix_epoch_ticks in *. lia. }
  destruct (Z.ltb_spec 0 (convertFILETIME ft)); [lia|reflexivity].
Qed.

(** The pre-1970 constant is not the rendering of any later second. *)
Lemma constant_not_second t : ~ shows_second (B "1601-01-01 00:00:00") t.
Proof.
  unfold shows_second. intros H.
  assert (timestamp_text (B "1601-01-01 00:00:00") (1601, 1, 1) 0) as K.
  { apply (ts (B "1601") (B "01") (B "01") (B "00") (B "00") (B "00") 1601 1 1 0 0 0);
      try (cbn; lia); vm_compute; reflexivity. }
  destruct (timestamp_text_fun _ _ _ _ _ H K) as [E _].
  pose proof (valid_date_of_day (t / 86400)) as V. rewrite E in V.
  destruct V as [V _]. lia.
Qed.

Lemma FileTimeToString_inj a b : a < 2 ^ 64 -> b < 2 ^ 64 ->
  unix_epoch_ticks + 10000000 <= a ->
  FileTimeToString a = FileTimeToString b -> a / 10000000 = b / 10000000.
Proof.
  intros Ha Hb Ea E.
  pose proof (FileTimeToString_after a Ha Ea) as Sa. rewrite E in Sa.
  destruct (N.lt_ge_cases b (unix_epoch_ticks + 10000000)) as [Hlt|Hge].
  - rewrite FileTimeToString_before in Sa by assumption. exfalso. eapply constant_not_second. exact Sa.
  - pose proof (FileTimeToString_after b Hb Hge) as Sb.
    pose proof (shows_second_fun _ _ _ Sa Sb) as K. unfold unix_epoch_ticks in *. lia.
Qed.
