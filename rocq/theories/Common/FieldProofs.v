(** Facts about windows and numbers stored in a file. *)
From Coq Require Import List NArith ZArith Bool Lia.
From Coq Require Import ZifyBool ZifyNat ZifyN.
From Verif Require Import Lib.Res Lib.Bytes Lib.BytesFacts Common.Spec Common.Fields Common.ReadProofs.
Import ListNotations.
Local Open Scope N_scope.
Ltac Zify.zify_post_hook ::= Z.div_mod_to_equations.

Lemma window_len buf off n w : window buf off n w -> off + n <= lenN buf.
Proof.
  intros [L (pre & post & E & P)]. subst buf. rewrite !lenN_app. lia.
Qed.

Lemma window_take buf off n w m : window buf off n w -> off + n <= m -> window (takeN m buf) off n w.
Proof.
  intros H Hm. apply slice_window in H. apply slice_window.
  pose proof (slice_inv _ _ _ _ H) as (L & E & _). unfold slice.
  rewrite lenN_takeN. destruct (N.leb_spec (off + n) (N.min m (lenN buf))); [|lia].
  f_equal. rewrite E. rewrite !takeN_dropN_comm, takeN_takeN.
  rewrite N.min_l by lia. reflexivity.
Qed.

Lemma window_untake buf off n w m : window (takeN m buf) off n w -> window buf off n w.
Proof.
  intros [L (pre & post & E & P)]. split; [exact L|].
  exists pre, (post ++ dropN m buf). split; [|exact P].
  rewrite <- (takeN_dropN m buf) at 1. rewrite E, <- !app_assoc. reflexivity.
Qed.

Lemma number_at_fun buf off n v v' : number_at buf off n v -> number_at buf off n v' -> v = v'.
Proof. intros (w & H & E) (w' & H' & E'). rewrite (window_fun _ _ _ _ _ H H') in E. congruence. Qed.
Lemma number_at_ex buf off n : off + n <= lenN buf -> exists v, number_at buf off n v.
Proof.
  intros H. exists (le (takeN n (dropN off buf))), (takeN n (dropN off buf)).
  split; [apply occurs_window; exact H|reflexivity].
Qed.
Lemma number_at_len buf off n v : number_at buf off n v -> off + n <= lenN buf.
Proof. intros (w & W & _). eapply window_len; eassumption. Qed.
Lemma number_at_take buf off n v m : number_at buf off n v -> off + n <= m -> number_at (takeN m buf) off n v.
Proof. intros (w & W & E) H. exists w. split; [apply window_take; assumption|exact E]. Qed.
Lemma number_at_bound buf off n v : number_at buf off n v -> v < 256 ^ n.
Proof. intros (w & [L _] & <-). rewrite <- L. apply le_bound. Qed.

Lemma dropN_app_len {A} (l m : list A) n : lenN l = n -> dropN n (l ++ m) = m.
Proof. intros <-. apply dropN_app_exact. Qed.
Lemma takeN_app_len {A} (l m : list A) n : lenN l = n -> takeN n (l ++ m) = l.
Proof. intros <-. apply takeN_app_exact. Qed.
