(** Lemmas about [convert] and [to_wchars]. *)
From Coq Require Import List NArith ZArith Bool Lia.
From Coq Require Import ZifyBool ZifyNat ZifyN.
From Verif Require Import Lib.Res Lib.Bytes Lib.BytesFacts Common.Model Common.Utf8.
Import ListNotations.
Local Open Scope N_scope.
Ltac Zify.zify_post_hook ::= Z.div_mod_to_equations.
Arguments N.pow : simpl never.

Lemma b2n_n2b_small n : n < 256 -> b2n (n2b n) = n.
Proof. intros H. rewrite b2n_n2b. apply N.mod_small. exact H. Qed.

Lemma unit_char c s : utf8_unit c = Ok s -> scalar c -> utf8_char s c.
Proof.
  unfold utf8_unit, scalar. intros H Hc.
  destruct (c <? 128) eqn:E1.
  { injection H as <-. pattern c at 2. rewrite <- (b2n_n2b_small c) by lia. apply u8_one. rewrite b2n_n2b_small; lia. }
  destruct (c <? 2048) eqn:E2.
  { injection H as <-. replace c with (64 * (c / 64) + c mod 64) at 3 by lia.
    apply u8_two; rewrite ?b2n_n2b_small by lia; lia. }
  destruct (c <? 65536) eqn:E3.
  { injection H as <-. replace c with (4096 * (c / 4096) + 64 * (c / 64 mod 64) + c mod 64) at 4 by lia.
    apply u8_three; rewrite ?b2n_n2b_small by lia; unfold scalar; lia. }
  destruct (c <? 1114112) eqn:E4; [|discriminate].
  injection H as <-.
  replace c with (262144 * (c / 262144) + 4096 * (c / 4096 mod 64) + 64 * (c / 64 mod 64) + c mod 64) at 5 by lia.
  apply u8_four; rewrite ?b2n_n2b_small by lia; unfold scalar; lia.
Qed.

(** Every character tells its own length: the encoding is a prefix code. *)
Lemma char_prefix s c s' c' t t' : utf8_char s c -> utf8_char s' c' -> s ++ t = s' ++ t' -> c = c' /\ t = t'.
Proof.
  intros H H' E. inversion H; inversion H'; subst; cbn [app] in E; injection E; intros; subst; split;
    try congruence; try lia.
Qed.

Lemma char_not_nil s c : utf8_char s c -> s <> [].
Proof. intros H ->. inversion H. Qed.

Lemma utf8_fun s l l' : utf8 s l -> utf8 s l' -> l = l'.
Proof.
  intros H. revert l'. induction H as [|s c t l Hc Hl IH]; intros l' H'.
  - inversion H' as [|s0 c0 t0 l0 H1 H2 E]; [reflexivity|].
    apply app_eq_nil in E. destruct E as [-> ->]. apply char_not_nil in H1. congruence.
  - inversion H' as [E|s0 c0 t0 l0 H1 H2 E].
    + symmetry in E. apply app_eq_nil in E. destruct E as [-> ->]. apply char_not_nil in Hc. congruence.
    + destruct (char_prefix _ _ _ _ _ _ Hc H1 (eq_sym E)) as [-> ->]. f_equal. apply IH. exact H2.
Qed.

Lemma utf8_app s l t m : utf8 s l -> utf8 t m -> utf8 (s ++ t) (l ++ m).
Proof.
  induction 1 as [|s c s' l Hc Hl IH]; intros Hm; [exact Hm|]. rewrite <- app_assoc. cbn [app].
  constructor; auto.
Qed.

Lemma convert_nil : convert [] = Ok [].
Proof. reflexivity. Qed.
Lemma convert_cons c l : convert (c :: l) = (s <- utf8_unit c ;; t <- convert l ;; Ok (s ++ t)).
Proof.
  unfold convert. cbn [mapM]. destruct (utf8_unit c); [|reflexivity..]. cbn [bind].
  destruct (mapM utf8_unit l); reflexivity.
Qed.

Lemma unit_ok c : c < 1114112 -> exists s, utf8_unit c = Ok s.
Proof.
  intros H. unfold utf8_unit.
  repeat match goal with |- context[if ?b then _ else _] => destruct b eqn:? end; try (eexists; reflexivity). lia.
Qed.
Lemma unit_bad c : 1114112 <= c -> utf8_unit c = Throw RangeError.
Proof.
  intros H. unfold utf8_unit.
  repeat match goal with |- context[if ?b then _ else _] => destruct b eqn:? end; try lia. reflexivity.
Qed.

Lemma convert_ok l : Forall (fun c => c < 1114112) l -> exists s, convert l = Ok s.
Proof.
  induction 1 as [|c l Hc Hl (s & IH)]; [exists []; reflexivity|].
  destruct (unit_ok c Hc) as [u Hu]. exists (u ++ s). rewrite convert_cons, Hu, IH. reflexivity.
Qed.
Lemma convert_bad l : ~ Forall (fun c => c < 1114112) l -> convert l = Throw RangeError.
Proof.
  induction l as [|c l IH]; intros H; [exfalso; apply H; constructor|].
  rewrite convert_cons. destruct (c <? 1114112) eqn:E.
  - destruct (unit_ok c) as [u ->]; [lia|]. cbn [bind]. rewrite IH; [reflexivity|].
    intros Hl. apply H. constructor; [lia|exact Hl].
  - rewrite unit_bad by lia. reflexivity.
Qed.

Lemma scalar_range c : scalar c -> c < 1114112.
Proof. unfold scalar. lia. Qed.
Lemma Forall_scalar_range l : Forall scalar l -> Forall (fun c => c < 1114112) l.
Proof. intros H. eapply Forall_impl; [|exact H]. exact scalar_range. Qed.

Lemma convert_utf8 l s : convert l = Ok s -> Forall scalar l -> utf8 s l.
Proof.
  revert s. induction l as [|c l IH]; intros s H Hs.
  - injection H as <-. constructor.
  - rewrite convert_cons in H. destruct (utf8_unit c) as [u| | |] eqn:Hu; [|discriminate..]. cbn [bind] in H.
    destruct (convert l) as [t| | |] eqn:Ht; [|discriminate..]. injection H as <-.
    inversion Hs; subst. constructor; [apply unit_char; assumption|apply IH; auto].
Qed.

(** The first character of a text says which kind of unit produced it *)
Lemma unit_surrogate c s t l : utf8_unit c = Ok s -> utf8 (s ++ t) l -> exists l', l = c :: l' /\ utf8 t l'.
Proof.
  unfold utf8_unit. intros H U.
  inversion U as [E|u d v m Hd Hm E]; subst.
  - exfalso. symmetry in E. apply app_eq_nil in E. destruct E as [-> _].
    repeat match type of H with context[if ?b then _ else _] => destruct b end; discriminate.
  - exists m.
    assert (G : d = c /\ v = t); [|destruct G; subst; auto].
    repeat match type of H with context[if ?b then _ else _] => destruct b eqn:? end; try discriminate;
      injection H as <-; inversion Hd; subst; cbn [app] in E; injection E; intros; subst;
      rewrite ?b2n_n2b_small in * by lia; split; try reflexivity; try lia.
Qed.

Lemma convert_utf8_iff l s : convert l = Ok s -> forall m, utf8 s m <-> (m = l /\ Forall scalar l).
Proof.
  intros H m. split; [|intros [-> Hs]; apply convert_utf8; assumption].
  revert s m H. induction l as [|c l IH]; intros s m H U.
  - injection H as <-. split; [|constructor]. apply (utf8_fun [] m [] U). constructor.
  - rewrite convert_cons in H. destruct (utf8_unit c) as [u| | |] eqn:Hu; [|discriminate..]. cbn [bind] in H.
    destruct (convert l) as [t| | |] eqn:Ht; [|discriminate..]. injection H as <-.
    destruct (unit_surrogate c u t m Hu U) as (m' & -> & U').
    destruct (IH t m' eq_refl U') as [-> Hs]. split; [reflexivity|]. constructor; [|exact Hs].
    inversion U as [|u0 d v n Hd Hm E]; subst. inversion Hd; subst; assumption || (unfold scalar; lia).
Qed.

(** ** Dropping zero characters *)
Definition nonzero (c : N) : bool := negb (c =? 0).

Lemma byte_eqb_n2b0 n : n < 256 -> byte_eqb (n2b n) x00 = (n =? 0).
Proof.
  intros H. destruct (byte_eqb (n2b n) x00) eqn:E.
  - apply byte_eqb_eq in E. apply (f_equal b2n) in E. rewrite b2n_n2b_small in E by lia. cbn in E. lia.
  - symmetry. apply N.eqb_neq. intros ->. cbn in E. discriminate.
Qed.

Lemma unit_nonzero c s : utf8_unit c = Ok s -> erasenulls s = if c =? 0 then [] else s.
Proof.
  unfold utf8_unit, erasenulls. intros H.
  repeat match type of H with context[if ?b then _ else _] => destruct b eqn:? end; try discriminate;
    injection H as <-; cbn [filter]; rewrite ?byte_eqb_n2b0 by lia;
    repeat match goal with |- context[negb ?b] => destruct b eqn:?; cbn [negb] end; try lia; try reflexivity;
    destruct (c =? 0) eqn:?; try reflexivity; lia.
Qed.

Lemma erasenulls_app s t : erasenulls (s ++ t) = erasenulls s ++ erasenulls t.
Proof. apply filter_app. Qed.

Lemma convert_nonzero l s : convert l = Ok s -> convert (filter nonzero l) = Ok (erasenulls s).
Proof.
  revert s. induction l as [|c l IH]; intros s H.
  - injection H as <-. reflexivity.
  - rewrite convert_cons in H. destruct (utf8_unit c) as [u| | |] eqn:Hu; [|discriminate..]. cbn [bind] in H.
    destruct (convert l) as [t| | |] eqn:Ht; [|discriminate..]. injection H as <-.
    rewrite erasenulls_app, (unit_nonzero c u Hu). cbn [filter]. unfold nonzero at 1.
    destruct (c =? 0); cbn [negb].
    + apply IH. reflexivity.
    + rewrite convert_cons, Hu, (IH t eq_refl). reflexivity.
Qed.

(** ASCII text is its own encoding *)
Lemma convert_ascii (s : bytes) : Forall (fun b => b2n b < 128) s -> convert (map b2n s) = Ok s.
Proof.
  induction 1 as [|b s Hb Hs IH]; [reflexivity|]. cbn [map]. rewrite convert_cons, IH.
  unfold utf8_unit. replace (b2n b <? 128) with true by lia. cbn [bind app]. rewrite n2b_b2n. reflexivity.
Qed.

(** ** Units *)
Lemma length_to_le w n : List.length (to_le w n) = w.
Proof. pose proof (lenN_to_le w n) as H. unfold lenN in H. lia. Qed.

Lemma wchars_units w l : (0 < w)%nat -> Forall (fun u => u < 256 ^ N.of_nat w) l -> forall fuel,
  (List.length l < fuel)%nat -> wchars w fuel (units w l) = l.
Proof.
  intros Hw. induction 1 as [|u l Hu Hl IH]; intros fuel Hf; (destruct fuel as [|fuel]; [cbn [List.length] in Hf; lia|]).
  - unfold units. cbn [map List.concat wchars List.length]. replace (Nat.ltb 0 w) with true by lia. reflexivity.
  - unfold units. cbn [map List.concat wchars]. fold (units w l).
    rewrite app_length, length_to_le. replace (Nat.ltb _ w) with false by lia.
    rewrite firstn_app, length_to_le, Nat.sub_diag, firstn_all2 by (rewrite length_to_le; lia).
    cbn [firstn]. rewrite app_nil_r, le_to_le_id by exact Hu.
    rewrite skipn_app, length_to_le, Nat.sub_diag, skipn_all2 by (rewrite length_to_le; lia).
    cbn [skipn app]. rewrite IH by (cbn [List.length] in Hf; lia). reflexivity.
Qed.

Lemma length_units w l : List.length (units w l) = (w * List.length l)%nat.
Proof.
  induction l as [|u l IH]; [cbn; lia|]. unfold units in *. cbn [map List.concat List.length].
  rewrite app_length, length_to_le, IH. lia.
Qed.
Lemma lenN_units w l : lenN (units w l) = N.of_nat w * lenN l.
Proof. unfold lenN. rewrite length_units. lia. Qed.

Lemma to_wchars_units p l : 0 < sizeof_wchar p -> Forall (fun u => u < 256 ^ sizeof_wchar p) l ->
  to_wchars p (units (N.to_nat (sizeof_wchar p)) l) = l.
Proof.
  intros Hp Hl. unfold to_wchars. apply wchars_units; [lia|rewrite N2Nat.id; exact Hl|].
  rewrite length_units. nia.
Qed.
