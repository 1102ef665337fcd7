(** Proofs about trimming, case-insensitive comparison and NUL removal. *)
From Coq Require Import List NArith ZArith Bool Lia.
From Coq Require Import ZifyBool ZifyNat ZifyN.
From Verif Require Import Lib.Res Lib.Bytes Lib.BytesFacts Common.Model Common.Spec.
Import ListNotations.
Local Open Scope N_scope.

Lemma in_set_iff chars c : in_set chars c = true <-> In c chars.
Proof.
  unfold in_set. rewrite existsb_exists. split.
  - intros (x & Hx & E). apply byte_eqb_eq in E. subst. exact Hx.
  - intros H. exists c. split; [exact H|apply byte_eqb_refl].
Qed.

Lemma ws_white c : In c ws_chars <-> white c.
Proof. unfold ws_chars, white. cbn [In]. intuition congruence. Qed.

(** A general trim specification over an arbitrary set. *)
Definition trimmed_by (P : byte -> Prop) (s t : bytes) : Prop :=
  exists p r, s = p ++ t ++ r /\ Forall P p /\ Forall P r /\
  (forall c t', t = c :: t' -> ~ P c) /\ (forall t' c, t = t' ++ [c] -> ~ P c).

Lemma ltrim_split chars s : exists p, s = p ++ ltrim chars s /\
  Forall (fun c => In c chars) p /\ (forall c t', ltrim chars s = c :: t' -> ~ In c chars).
Proof.
  induction s as [|c s IH]; cbn [ltrim].
  - exists []. repeat split; [constructor|discriminate].
  - destruct (in_set chars c) eqn:E.
    + destruct IH as (p & Hp & Hf & Hn). exists (c :: p).
      split; [cbn [app]; congruence|]. split; [|exact Hn].
      constructor; [apply in_set_iff; exact E|exact Hf].
    + exists []. split; [reflexivity|]. split; [constructor|].
      intros c' t' [= <- <-] Hin. apply in_set_iff in Hin. congruence.
Qed.

Lemma last_not_of_le chars s : (last_not_of chars s <= List.length s)%nat.
Proof.
  induction s as [|c s IH]; cbn [last_not_of List.length]; [lia|].
  destruct (last_not_of chars s) as [|k]; [|lia]. destruct (in_set chars c); lia.
Qed.

Lemma last_not_of_0 chars s : last_not_of chars s = O -> Forall (fun c => In c chars) s.
Proof.
  induction s as [|c s IH]; cbn [last_not_of]; [constructor|].
  destruct (last_not_of chars s) as [|k]; [|discriminate].
  destruct (in_set chars c) eqn:E; [|discriminate]. intros _.
  constructor; [apply in_set_iff; exact E|apply IH; reflexivity].
Qed.

Lemma rtrim_split chars s : exists r, s = rtrim chars s ++ r /\
  Forall (fun c => In c chars) r /\ (forall t' c, rtrim chars s = t' ++ [c] -> ~ In c chars).
Proof.
  unfold rtrim. exists (skipn (last_not_of chars s) s).
  split; [symmetry; apply firstn_skipn|].
  induction s as [|c s [IH1 IH2]]; cbn [last_not_of].
  - split; [constructor|]. intros t' c H. destruct t'; discriminate H.
  - destruct (last_not_of chars s) as [|k] eqn:Ek.
    + pose proof (last_not_of_0 _ _ Ek) as H0.
      destruct (in_set chars c) eqn:E.
      * cbn [firstn skipn]. split; [constructor; [apply in_set_iff; exact E|exact H0]|].
        intros t' d H. destruct t'; discriminate H.
      * cbn [firstn skipn]. split; [exact H0|].
        intros t' d H Hin. destruct t' as [|e [|]]; cbn in H; try discriminate H.
        injection H as <-. apply in_set_iff in Hin. congruence.
    + cbn [firstn skipn]. split; [exact IH1|].
      intros t' d H. destruct t' as [|e t']; cbn [app] in H.
      * injection H as _ H. destruct s; [discriminate Ek|discriminate H].
      * injection H as _ H. eapply IH2. exact H.
Qed.

Lemma trim_split chars s : trimmed_by (fun c => In c chars) s (trim chars s).
Proof.
  unfold trim.
  destruct (rtrim_split chars s) as (r & Er & Fr & Nr).
  destruct (ltrim_split chars (rtrim chars s)) as (p & Ep & Fp & Np).
  exists p, r. split; [rewrite app_assoc, <- Ep; exact Er|].
  split; [exact Fp|]. split; [exact Fr|]. split; [exact Np|].
  intros t' c E. apply (Nr (p ++ t') c). rewrite Ep, E, app_assoc. reflexivity.
Qed.

(** Two trimmings of one string agree. *)
Lemma strip_prefix_eq (P : byte -> Prop) p1 p2 u1 u2 :
  Forall P p1 -> Forall P p2 ->
  (forall c t, u1 = c :: t -> ~ P c) -> (forall c t, u2 = c :: t -> ~ P c) ->
  p1 ++ u1 = p2 ++ u2 -> u1 = u2.
Proof.
  intros F1; revert p2; induction F1 as [|c p1 Hc F1 IH]; intros p2 F2 N1 N2 E.
  - destruct F2 as [|d p2 Hd F2]; [exact E|]. exfalso. cbn in E. eapply N1; [exact E|exact Hd].
  - destruct F2 as [|d p2 Hd F2].
    + exfalso. cbn in E. eapply N2; [symmetry; exact E|exact Hc].
    + cbn in E. injection E as -> E. eapply IH; eauto.
Qed.

Lemma Forall_rev_iff {A} (P : A -> Prop) l : Forall P l -> Forall P (rev l).
Proof. intros H. apply Forall_forall. intros x Hx. rewrite <- in_rev in Hx.
  rewrite Forall_forall in H. auto. Qed.

Lemma trimmed_by_unique P s t t' : trimmed_by P s t -> trimmed_by P s t' -> t = t'.
Proof.
  intros (p & r & E & Fp & Fr & Nl & Nr) (p' & r' & E' & Fp' & Fr' & Nl' & Nr').
  destruct t as [|c t0].
  - destruct t' as [|c' t'']; [reflexivity|]. exfalso.
    apply (Nl' c' t''); [reflexivity|].
    assert (Forall P s) as Fs by (rewrite E; apply Forall_app; auto).
    rewrite E', Forall_app in Fs. destruct Fs as [_ Fs]. inversion Fs. assumption.
  - destruct t' as [|c' t''].
    + exfalso. apply (Nl c t0); [reflexivity|].
      assert (Forall P s) as Fs by (rewrite E'; apply Forall_app; auto).
      rewrite E, Forall_app in Fs. destruct Fs as [_ Fs]. inversion Fs. assumption.
    + assert ((c :: t0) ++ r = (c' :: t'') ++ r') as E2.
      { apply (strip_prefix_eq P p p'); auto; try congruence.
        - intros d t [= <- _]. eapply Nl. reflexivity.
        - intros d t [= <- _]. eapply Nl'. reflexivity. }
      assert (rev (c :: t0) = rev (c' :: t'')) as E3.
      { apply (strip_prefix_eq P (rev r) (rev r')).
        - apply Forall_rev_iff. exact Fr.
        - apply Forall_rev_iff. exact Fr'.
        - intros d t Ed. apply (Nr (rev t)).
          rewrite <- (rev_involutive (c :: t0)), Ed. reflexivity.
        - intros d t Ed. apply (Nr' (rev t)).
          rewrite <- (rev_involutive (c' :: t'')), Ed. reflexivity.
        - rewrite <- !rev_app_distr. congruence. }
      rewrite <- (rev_involutive (c :: t0)), E3. apply rev_involutive.
Qed.

Lemma trimmed_by_white s t : trimmed s t <-> trimmed_by (fun c => In c ws_chars) s t.
Proof.
  unfold trimmed, trimmed_by. split; intros (p & r & E & Fp & Fr & Nl & Nr); exists p, r;
    (split; [exact E|]); (split; [|split; [|split]]).
  - eapply Forall_impl; [|exact Fp]; intros ? H; apply ws_white; exact H.
  - eapply Forall_impl; [|exact Fr]; intros ? H; apply ws_white; exact H.
  - intros c t' Ec Hin. apply (Nl c t' Ec), ws_white. exact Hin.
  - intros t' c Ec Hin. apply (Nr t' c Ec), ws_white. exact Hin.
  - eapply Forall_impl; [|exact Fp]; intros ? H; apply ws_white; exact H.
  - eapply Forall_impl; [|exact Fr]; intros ? H; apply ws_white; exact H.
  - intros c t' Ec Hin. apply (Nl c t' Ec), ws_white. exact Hin.
  - intros t' c Ec Hin. apply (Nr t' c Ec), ws_white. exact Hin.
Qed.

Lemma trim_trimmed s : trimmed s (trim ws_chars s).
Proof. apply trimmed_by_white, trim_split. Qed.

Lemma trimmed_unique s t t' : trimmed s t -> trimmed s t' -> t = t'.
Proof. rewrite !trimmed_by_white. apply trimmed_by_unique. Qed.

Lemma trim_idempotent s : trim ws_chars (trim ws_chars s) = trim ws_chars s.
Proof.
  destruct (trim_trimmed s) as (p & r & _ & _ & _ & Nl & Nr).
  symmetry. eapply trimmed_unique; [|apply trim_trimmed].
  exists [], []. rewrite app_nil_r. repeat split; auto.
Qed.

(** ** Case-insensitive comparison *)
Lemma tolower_same x y : tolower x = tolower y <-> same_letter x y.
Proof.
  unfold tolower, same_letter.
  destruct ((65 <=? x) && (x <=? 90)) eqn:Ex, ((65 <=? y) && (y <=? 90)) eqn:Ey;
    rewrite ?andb_true_iff, ?andb_false_iff, ?N.leb_le, ?N.leb_gt in *.
  - split; [intros; left; lia|]. intros [->|(k & Hk & [[-> ->]|[-> ->]])]; lia.
  - split; [intros; right; exists (x - 65); split; [lia|left; lia]|].
    intros [->|(k & Hk & [[-> ->]|[-> ->]])]; lia.
  - split; [intros; right; exists (y - 65); split; [lia|right; lia]|].
    intros [->|(k & Hk & [[-> ->]|[-> ->]])]; lia.
  - split; [auto|]. intros [->|(k & Hk & [[-> ->]|[-> ->]])]; lia.
Qed.

Lemma iequals_iff a b :
  iequals a b = true <-> Forall2 (fun x y => same_letter (b2n x) (b2n y)) a b.
Proof.
  revert b; induction a as [|x a IH]; intros [|y b]; cbn [iequals].
  - split; [constructor|reflexivity].
  - split; [discriminate|intros H; inversion H].
  - split; [discriminate|intros H; inversion H].
  - rewrite andb_true_iff, N.eqb_eq, tolower_same, IH. split.
    + intros [H1 H2]. constructor; assumption.
    + intros H. inversion H; subst. auto.
Qed.

Lemma iequals_w_iff a b :
  iequals_w a b = true <-> Forall2 (fun x y => same_letter (x mod 256) (y mod 256)) a b.
Proof.
  revert b; induction a as [|x a IH]; intros [|y b]; cbn [iequals_w].
  - split; [constructor|reflexivity].
  - split; [discriminate|intros H; inversion H].
  - split; [discriminate|intros H; inversion H].
  - rewrite andb_true_iff, N.eqb_eq, tolower_same, IH. split.
    + intros [H1 H2]. constructor; assumption.
    + intros H. inversion H; subst. auto.
Qed.

Lemma iequals_w_ascii a b :
  Forall (fun x => x < 256) a -> Forall (fun x => x < 256) b ->
  (iequals_w a b = true <-> Forall2 same_letter a b).
Proof.
  rewrite iequals_w_iff. intros Ha; revert b. induction Ha as [|x a Hx Ha IH]; intros b Hb.
  - split; intros H; inversion H; constructor.
  - destruct Hb as [|y b Hy Hb].
    + split; intros H; inversion H.
    + split; intros H; inversion H; subst; constructor.
      * rewrite <- (N.mod_small x 256), <- (N.mod_small y 256) by assumption. assumption.
      * apply IH; assumption.
      * rewrite (N.mod_small x 256), (N.mod_small y 256) by assumption. assumption.
      * apply IH; assumption.
Qed.

Lemma iequals_refl a : iequals a a = true.
Proof. induction a as [|x a IH]; cbn [iequals]; [reflexivity|]. rewrite N.eqb_refl. exact IH. Qed.
Lemma iequals_sym a b : iequals a b = iequals b a.
Proof. revert b; induction a as [|x a IH]; intros [|y b]; cbn [iequals]; try reflexivity.
  rewrite N.eqb_sym, IH. reflexivity. Qed.
Lemma iequals_trans a b c : iequals a b = true -> iequals b c = true -> iequals a c = true.
Proof.
  revert b c; induction a as [|x a IH]; intros [|y b] [|z c]; cbn [iequals]; try discriminate; auto.
  rewrite !andb_true_iff, !N.eqb_eq. intros [E1 H1] [E2 H2]. split; [congruence|eapply IH; eauto].
Qed.

(** ** Removing NULs *)
Lemma erasenulls_spec s : without_nuls s (erasenulls s).
Proof.
  unfold erasenulls. induction s as [|c s IH]; cbn [filter]; [constructor|].
  destruct (byte_eqb c x00) eqn:E; cbn [negb].
  - apply byte_eqb_eq in E. subst. constructor. exact IH.
  - apply byte_eqb_neq in E. constructor; assumption.
Qed.

Lemma without_nuls_fun s t t' : without_nuls s t -> without_nuls s t' -> t = t'.
Proof.
  intros H; revert t'. induction H; intros t' H'; inversion H'; subst; try congruence; auto.
  f_equal. auto.
Qed.

Lemma without_nuls_none s t : without_nuls s t -> ~ In x00 t.
Proof. induction 1; cbn; auto. intros [?|?]; [congruence|contradiction]. Qed.
