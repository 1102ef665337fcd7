(** Computations that do not run on, whatever else happens. *)
From Coq Require Import List NArith ZArith Bool Lia ZifyBool ZifyNat ZifyN.
From Verif Require Import Lib.Res Lib.Bytes Lib.BytesFacts Common.Model.
Import ListNotations.
Local Open Scope N_scope.
Ltac Zify.zify_post_hook ::= Z.div_mod_to_equations.
Arguments N.pow : simpl never.
Arguments N.mul : simpl never.

(** ** Outcomes other than running on *)
Definition ends {A} (P : A -> Prop) (r : res A) : Prop := match r with Ok a => P a | Throw _ | UB => True | Fuel => False end.
Lemma ends_bind {A C} (P : A -> Prop) (Q : C -> Prop) m (f : A -> res C) : ends P m -> (forall a, P a -> ends Q (f a)) -> ends Q (bind m f).
Proof. destruct m; cbn; auto. Qed.
Lemma ends_weak {A} (P Q : A -> Prop) m : (forall a, P a -> Q a) -> ends P m -> ends Q m.
Proof. destruct m; cbn; auto. Qed.
Lemma ends_not {A} (P : A -> Prop) (m : res A) : ends P m -> m <> Fuel.
Proof. destruct m; cbn; [discriminate|discriminate|discriminate|contradiction]. Qed.
Lemma not_ends {A} (m : res A) : m <> Fuel -> ends (fun _ => True) m.
Proof. destruct m; cbn; auto. Qed.
Lemma P32 : 2 ^ 32 = 4294967296. Proof. reflexivity. Qed.
Lemma u32_id n : n < 2 ^ 32 -> u32 n = n.
Proof. intros H. unfold u32. apply N.mod_small. exact H. Qed.

Lemma rd_end buf i : ends (fun _ => i < lenN buf) (rd buf i).
Proof. unfold rd. destruct (nthN buf i) eqn:E; [|exact I]. exact (nthN_Some_lt _ _ _ E). Qed.
Lemma rdb_end buf i : ends (fun _ => i < lenN buf) (rdb buf i).
Proof. unfold rdb. destruct (nthN buf i) eqn:E; [|exact I]. exact (nthN_Some_lt _ _ _ E). Qed.
Lemma slice_end buf o n : ends (fun _ => o + n <= lenN buf) (slice buf o n).
Proof. unfold slice. destruct (N.leb_spec (o + n) (lenN buf)); [exact H|exact I]. Qed.
(** the first byte and, when the next position exists, the second are there *)
Lemma ushort_end buf max o : lenN buf < 2 ^ 32 -> ends (fun _ => o + 1 <= lenN buf /\ u32 (o + 1) <= max) (ReadUShort buf max o false).
Proof.
  intros L. unfold ReadUShort. destruct (N.ltb_spec max (u32 (o + 1))) as [A|A]; [exact I|].
  eapply ends_bind; [apply rd_end|]. cbn beta. intros x X. eapply ends_bind; [apply rd_end|]. cbn beta. intros y Y. cbn. lia.
Qed.
Lemma ushort_end2 buf max o : lenN buf < 2 ^ 32 -> ends (fun _ => o + 2 <= lenN buf) (ReadUShort buf max o false).
Proof.
  intros L. unfold ReadUShort. destruct (max <? u32 (o + 1)); [exact I|].
  eapply ends_bind; [apply rd_end|]. cbn beta. intros x X. eapply ends_bind; [apply rd_end|]. cbn beta. intros y Y. cbn.
  unfold u32 in Y. rewrite P32 in *. lia.
Qed.
Lemma uint_end buf max o be : ends (fun n => o < lenN buf /\ n < 2 ^ 32) (ReadUInt buf max o be).
Proof.
  unfold ReadUInt. destruct (_ <? _); [exact I|]. eapply ends_bind; [apply rd_end|]. cbn beta. intros x X.
  do 3 (eapply ends_bind; [apply rd_end|]; cbn beta; intros ? _). unfold u32. rewrite P32. destruct be; cbn; lia.
Qed.
