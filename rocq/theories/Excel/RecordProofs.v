(** Proofs about the names of records. *)
From Coq Require Import List NArith ZArith Bool Lia Strings.String Strings.Byte ZifyBool ZifyNat ZifyN.
From Verif Require Import Lib.Res Lib.Bytes Lib.BytesFacts Lib.Text Common.Model Excel.Tables Excel.Model Excel.Records Excel.FieldProofs Excel.LinkProofs Excel.RecordSpec.
Import ListNotations.
Local Open Scope N_scope.

(** A table by number and one by name *)
Definition turned : list (N * string) := map (fun e => (snd e, fst e)) records_by_name.
Lemma in_turned n s : In (n, s) turned <-> In (s, n) records_by_name.
Proof.
  unfold turned. rewrite in_map_iff. split.
  - intros ((s', n') & [= -> ->] & I). exact I.
  - intros I. exists (s, n). auto.
Qed.
Lemma turned_distinct : NoDup (map fst turned).
Proof. apply distinct_nodup. vm_compute. reflexivity. Qed.
(** Both tables hold the same rows. *)
Fixpoint found (l : list (N * bytes)) (n : N) (s : bytes) : bool := match l with [] => false | (k, t) :: r => (k =? n) && bytes_eqb t s || found r n s end.
Lemma found_in l n s : found l n s = true -> In (n, s) l.
Proof.
  induction l as [|[k t] r IH]; [discriminate|]. cbn [found In]. rewrite orb_true_iff, andb_true_iff. intros [[A E]|H]; [|right; apply IH, H].
  left. apply N.eqb_eq in A. apply bytes_eqb_eq in E. congruence.
Qed.
Lemma named_in l other n s : NoDup (map fst l) -> In (n, s) l -> Excel.Model.named l other n = s.
Proof.
  induction l as [|[k t] l IH]; [intros _ []|]. cbn [map fst]. intros D. inversion_clear D as [|? ? Nin D'].
  cbn [Excel.Model.named]. intros [[= -> ->]|I].
  - rewrite N.eqb_refl. reflexivity.
  - destruct (N.eqb_spec k n) as [->|_]; [exfalso; apply Nin; apply (in_map fst _ _ I)|apply IH; assumption].
Qed.
Lemma named_out l other n : ~ In n (map fst l) -> Excel.Model.named l other n = other.
Proof.
  induction l as [|[k t] l IH]; [reflexivity|]. cbn [map fst In Excel.Model.named]. intros H. destruct (N.eqb_spec k n) as [->|_]; [exfalso; apply H; left; reflexivity|].
  apply IH. intros I. apply H. right. exact I.
Qed.
Lemma types_distinct : NoDup (map fst record_types).
Proof. apply distinct_nodup. vm_compute. reflexivity. Qed.
Lemma turned_types : forallb (fun e => found record_types (fst e) (B (snd e))) turned = true.
Proof. vm_compute. reflexivity. Qed.
Lemma types_turned : forallb (fun e => existsb (N.eqb (fst e)) (map fst turned)) record_types = true.
Proof. vm_compute. reflexivity. Qed.
Theorem name_shown n s : record_name n s -> GetRecordTypeStr n = B s.
Proof.
  intros [I|[H ->]]; unfold GetRecordTypeStr.
  - apply named_in; [exact types_distinct|]. apply found_in. pose proof turned_types as K. rewrite forallb_forall in K. apply (K (n, s)). apply in_turned. exact I.
  - apply named_out. intros I. apply in_map_iff in I. destruct I as ((k & t) & E & I). cbn [fst] in E. subst k.
    pose proof types_turned as K. rewrite forallb_forall in K. specialize (K _ I). cbn [fst] in K. apply existsb_exists in K. destruct K as (m & J & E). apply N.eqb_eq in E. subst m.
    apply in_map_iff in J. destruct J as ((m & s) & E & J). cbn [fst] in E. subst m. apply (H s). apply in_turned. exact J.
Qed.
Theorem name_exists n : exists s, record_name n s.
Proof.
  destruct (existsb (fun e => fst e =? n) turned) eqn:E.
  - apply existsb_exists in E. destruct E as ((k & s) & I & E). cbn [fst] in E. apply N.eqb_eq in E. subst k. exists s. left. apply in_turned. exact I.
  - exists "Unknown/Undocumented RecordType"%string. right. split; [|reflexivity]. intros s I. apply in_turned in I.
    assert (X : existsb (fun e => fst e =? n) turned = true) by (apply existsb_exists; exists (n, s); split; [exact I|apply N.eqb_refl]). congruence.
Qed.
Theorem name_unique n s s' : record_name n s -> record_name n s' -> s = s'.
Proof. intros H H'. apply B_inj. rewrite <- (name_shown n s H). apply name_shown. exact H'. Qed.
Lemma names_distinct : forallb (fun e => forallb (fun f => implb (String.eqb (fst e) (fst f)) (snd e =? snd f)) records_by_name && negb (String.eqb (fst e) "Unknown/Undocumented RecordType")) records_by_name = true.
Proof. vm_compute. reflexivity. Qed.
Theorem number_of_name n m s : In (s, n) records_by_name -> record_name m s -> n = m.
Proof.
  intros I H. pose proof names_distinct as K. rewrite forallb_forall in K. specialize (K _ I). cbn [fst snd] in K. apply andb_true_iff in K. destruct K as (K & U). destruct H as [J|[_ ->]].
  - rewrite forallb_forall in K. specialize (K _ J). cbn [fst snd] in K. rewrite String.eqb_refl in K. apply N.eqb_eq. exact K.
  - rewrite String.eqb_refl in U. discriminate U.
Qed.
Theorem json_name p r t s : record_json p r = Ok t -> record_name (r_type r) s -> json_begins s (lenN (r_data r)) t.
Proof.
  intros H N. unfold record_json in H. apply bind_ok in H. destruct H as (x & _ & H). injection H as <-. rewrite (name_shown _ _ N). exists (fst x ++ B "}")%list. reflexivity.
Qed.
Theorem xml_name p r t s : record_xml p r = Ok t -> record_name (r_type r) s -> xml_begins s (lenN (r_data r)) t.
Proof.
  intros H N. unfold record_xml in H. apply bind_ok in H. destruct H as (x & _ & H). injection H as <-. rewrite (name_shown _ _ N). exists (snd x ++ B "</Record>")%list. unfold elem, r_length.
  rewrite <- !app_assoc. reflexivity.
Qed.
