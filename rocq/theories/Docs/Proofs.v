(** Proofs about the detail functions of documents. *)
From Coq Require Import List NArith ZArith Lia Bool Strings.String ZifyBool ZifyNat ZifyN.
From Verif Require Import Lib.Res Lib.Bytes Lib.BytesFacts Lib.Text Common.Model Common.Spec Common.Fields
  Common.ReadProofs Common.FieldProofs Ole.Model Exe.Model Docs.Model Docs.Spec.
Import ListNotations.
Local Open Scope N_scope.
Arguments N.pow : simpl never.

Lemma field_at s off n v : number_at s off n v -> field s off n = Ok v.
Proof. intros (w & W & <-). unfold field. apply slice_window in W. rewrite W. reflexivity. Qed.
Lemma field_ub s off n : lenN s < off + n -> field s off n = UB.
Proof. intros H. unfold field. rewrite slice_ub by exact H. reflexivity. Qed.
Lemma field_ex s off n : off + n <= lenN s -> exists v, number_at s off n v /\ field s off n = Ok v.
Proof. intros H. destruct (number_at_ex s off n H) as [v V]. exists v. split; [exact V|apply field_at; exact V]. Qed.
Lemma two_bytes s off v : number_at s off 2 v -> v < 65536.
Proof. intros H%number_at_bound. exact H. Qed.

Lemma lookup_none {A} (t : list (N * A)) v : lookup t v = None -> forall m, ~ In (v, m) t.
Proof.
  induction t as [|[k a] t IH]; cbn [lookup]; intros H m I; [contradiction|].
  destruct (N.eqb_spec v k) as [->|K]; [discriminate|]. destruct I as [E|I]; [injection E as -> ->; contradiction|].
  exact (IH H m I).
Qed.
Lemma lookup_some {A} (t : list (N * A)) v a : lookup t v = Some a -> In (v, a) t.
Proof.
  induction t as [|[k b] t IH]; cbn [lookup]; intros H; [discriminate|].
  destruct (N.eqb_spec v k) as [->|K]; [injection H as ->; left; reflexivity|right; apply IH; exact H].
Qed.
Lemma named_in t t' v : (forall x, In x t <-> In x t') -> name_in t' v (named t v).
Proof.
  intros P. unfold named. destruct (lookup t v) as [n|] eqn:E.
  - left. apply P. apply lookup_some. exact E.
  - right. split; [reflexivity|]. intros m I. apply P in I. exact (lookup_none t v E m I).
Qed.
Lemma word_named v : name_in word_products v (GetVersion_Word v).
Proof. apply named_in. intros x. unfold word_names, word_products. cbn [In]. tauto. Qed.
Lemma visio_named v : name_in visio_products v (GetVersion_Visio v).
Proof. apply named_in. intros x. unfold visio_names, visio_products. cbn [In]. tauto. Qed.
Lemma publisher_named v : name_in publisher_products v (GetVersion_Publisher v).
Proof. apply named_in. intros x. unfold publisher_names, publisher_products. cbn [In]. tauto. Qed.

(** ** Word *)
Lemma nFib_stream s n o : word_stream s n o -> GetnFib s = Ok (match o with Some v => v | None => n end).
Proof.
  intros [cb csw v Hn Hc Hb Hs Hz Hv|cb Hn Hc Hb Hs]; unfold GetnFib.
  - pose proof (number_at_len _ _ _ _ Hv) as L. replace (lenN s <? 154) with false by lia.
    rewrite (field_at _ _ _ _ Hn), (field_at _ _ _ _ Hc). cbn [bind]. replace (255 <? cb) with false by lia.
    replace (154 + cb * 8) with (154 + 8 * cb) by lia. replace (lenN s <? 154 + 8 * cb + 4) with false by lia.
    rewrite (field_at _ _ _ _ Hs). cbn [bind]. replace (csw =? 0) with false by lia.
    replace (154 + 8 * cb + 2) with (156 + 8 * cb) by lia. apply field_at. exact Hv.
  - pose proof (number_at_len _ _ _ _ Hs) as L. replace (lenN s <? 154) with false by lia.
    rewrite (field_at _ _ _ _ Hn), (field_at _ _ _ _ Hc). cbn [bind]. replace (255 <? cb) with false by lia.
    replace (154 + cb * 8) with (154 + 8 * cb) by lia. destruct (N.ltb_spec (lenN s) (154 + 8 * cb + 4)); [reflexivity|].
    rewrite (field_at _ _ _ _ Hs). reflexivity.
Qed.
Lemma nFib_short s : lenN s < 154 -> GetnFib s = Ok 65535.
Proof. intros H. unfold GetnFib. replace (lenN s <? 154) with true by lia. reflexivity. Qed.
Lemma nFib_cases s : 154 <= lenN s -> exists n cb, number_at s 2 2 n /\ number_at s 152 2 cb /\
  ((255 < cb \/ lenN s < 158 + 8 * cb) /\ GetnFib s = Ok n \/
   cb <= 255 /\ 158 + 8 * cb <= lenN s /\ exists o, word_stream s n o /\ GetnFib s = Ok (match o with Some v => v | None => n end)).
Proof.
  intros L. destruct (field_ex s 2 2) as (n & Hn & En); [lia|]. destruct (field_ex s 152 2) as (cb & Hc & Ec); [lia|].
  exists n, cb. split; [exact Hn|]. split; [exact Hc|].
  destruct (N.le_gt_cases cb 255) as [B|B].
  - destruct (N.le_gt_cases (158 + 8 * cb) (lenN s)) as [M|M].
    + right. split; [exact B|]. split; [exact M|].
      destruct (field_ex s (154 + 8 * cb) 2) as (csw & Hs & _); [lia|]. destruct (field_ex s (156 + 8 * cb) 2) as (v & Hv & _); [lia|].
      destruct (N.eq_dec csw 0) as [->|Z].
      * exists None. assert (W : word_stream s n None) by (eapply word_without_new; eassumption). split; [exact W|exact (nFib_stream _ _ _ W)].
      * exists (Some v). assert (W : word_stream s n (Some v)) by (eapply word_with_new; eassumption). split; [exact W|apply (nFib_stream _ _ _ W)].
    + left. split; [right; exact M|]. unfold GetnFib. replace (lenN s <? 154) with false by lia. rewrite En, Ec. cbn [bind].
      replace (255 <? cb) with false by lia. replace (lenN s <? 154 + cb * 8 + 4) with true by lia. reflexivity.
  - left. split; [left; exact B|]. unfold GetnFib. replace (lenN s <? 154) with false by lia. rewrite En, Ec. cbn [bind].
    replace (255 <? cb) with true by lia. reflexivity.
Qed.

(** ** PowerPoint *)
Lemma first_within_cases t v :
  (first_within t v = B "Unknown" /\ forall b, In b t -> ~ near v b) \/
  exists b, In b t /\ near v b /\ first_within t v = snd b.
Proof.
  induction t as [|[k n] t IH]; [left; split; [reflexivity|intros b []]|]. cbn [first_within]. unfold withinCheck.
  destruct (N.leb_spec (k - 10) v) as [A|A]; [destruct (N.leb_spec v (k + 10)) as [A'|A']|]; cbn [andb].
  - right. exists (k, n). split; [left; reflexivity|]. split; [|reflexivity]. unfold near. cbn [fst]. lia.
  - destruct IH as [[E No]|(b & I & Nr & E)].
    + left. split; [exact E|]. intros b [<-|I]; [unfold near; cbn [fst]; lia|apply No; exact I].
    + right. exists b. split; [right; exact I|]. split; [exact Nr|exact E].
  - destruct IH as [[E No]|(b & I & Nr & E)].
    + left. split; [exact E|]. intros b [<-|I]; [unfold near; cbn [fst]; lia|apply No; exact I].
    + right. exists b. split; [right; exact I|]. split; [exact Nr|exact E].
Qed.
Lemma builds_same x : In x ppt_builds <-> In x builds.
Proof. unfold ppt_builds, builds. cbn [In]. tauto. Qed.

(** ** Substrings *)
Lemma starts_with_iff p s : starts_with p s = true <-> exists r, s = p ++ r.
Proof.
  revert s. induction p as [|a p IH]; intros s; cbn [starts_with].
  - split; [intros _; exists s; reflexivity|reflexivity].
  - destruct s as [|b s]; [split; [discriminate|intros [r H]; discriminate]|]. rewrite andb_true_iff, IH. split.
    + intros [E [r ->]]. apply byte_eqb_eq in E. subst. exists r. reflexivity.
    + intros [r H]. injection H as -> ->. split; [apply byte_eqb_eq; reflexivity|exists r; reflexivity].
Qed.
Lemma find_iff p s : find p s = true <-> contains p s.
Proof.
  induction s as [|b s IH]; cbn [find]; rewrite orb_true_iff, starts_with_iff.
  - split.
    + intros [[r H]|H]; [|discriminate]. exists [], r. exact H.
    + intros (x & y & E). left. destruct x; [exists y; exact E|discriminate].
  - rewrite IH. split.
    + intros [[r H]|(x & y & ->)]; [exists [], r; exact H|exists (b :: x), y; reflexivity].
    + intros (x & y & E). destruct x as [|c x]; [left; exists y; exact E|]. injection E as <- ->. right. exists x, y. reflexivity.
Qed.
Lemma find_false p s : ~ contains p s -> find p s = false.
Proof. intros H. destruct (find p s) eqn:E; [|reflexivity]. apply find_iff in E. contradiction. Qed.
