(** Sector chains. *)
From Coq Require Import List NArith ZArith Bool Lia.
From Coq Require Import ZifyBool ZifyNat ZifyN.
From Verif Require Import Lib.Res Lib.Bytes Lib.BytesFacts Ole.Model Ole.Spec.
Import ListNotations.
Local Open Scope N_scope.

Lemma nthN_bound {A} (l : list A) i x : nthN l i = Some x -> i < lenN l.
Proof. apply nthN_Some_lt. Qed.
Lemma nthN_ex {A} (l : list A) i : i < lenN l -> exists x, nthN l i = Some x.
Proof. apply nthN_lt. Qed.
Lemma nthN_out {A} (l : list A) i : lenN l <= i -> nthN l i = None.
Proof. apply nthN_None. Qed.

(** A list of small numbers without repetition is short. *)
Lemma nodup_short (l : list N) n : NoDup l -> Forall (fun x => x < n) l -> lenN l <= n.
Proof.
  intros D F. assert (H : (List.length l <= List.length (map N.of_nat (seq 0 (N.to_nat n))))%nat).
  { apply NoDup_incl_length; [exact D|]. intros x Hx. rewrite Forall_forall in F. apply F in Hx.
    apply in_map_iff. exists (N.to_nat x). split; [lia|]. apply in_seq. lia. }
  rewrite map_length, seq_length in H. unfold lenN. lia.
Qed.
Lemma dup_dec (l : list N) : NoDup l \/ exists l1 x l2 l3, l = l1 ++ x :: l2 ++ x :: l3.
Proof.
  induction l as [|a l [IH|(l1 & x & l2 & l3 & ->)]]; [left; constructor| |].
  - destruct (in_dec N.eq_dec a l) as [H|H]; [right|left; constructor; assumption].
    apply in_split in H. destruct H as (l1 & l2 & ->). exists [], a, l1, l2. reflexivity.
  - right. exists (a :: l1), x, l2, l3. reflexivity.
Qed.

Lemma chain_fun t b l : chain t b l -> forall m, chain t b m -> l = m.
Proof.
  induction 1 as [b H|b c l H C IH]; intros m D; inversion D as [b' K|b' c' l' K D']; subst.
  - reflexivity.
  - apply nthN_bound in K. lia.
  - apply nthN_bound in H. lia.
  - rewrite H in K. injection K as <-. f_equal. apply IH. exact D'.
Qed.
Lemma chain_suffix t b l : chain t b l -> forall x, In x l -> exists m, chain t x (x :: m) /\ (List.length m < List.length l)%nat.
Proof.
  induction 1 as [b H|b c l H C IH]; intros x I; [contradiction|].
  destruct I as [<-|I].
  - exists l. split; [econstructor; eassumption|cbn; lia].
  - destruct (IH x I) as (m & K & L). exists m. split; [exact K|cbn; lia].
Qed.
Lemma chain_nodup t b l : chain t b l -> NoDup l.
Proof.
  induction 1 as [b H|b c l H C IH]; constructor; [|exact IH].
  intros I. destruct (chain_suffix _ _ _ C _ I) as (m & K & L).
  assert (E : b :: m = b :: l) by (apply (chain_fun t b _ K); econstructor; eassumption).
  injection E as ->. lia.
Qed.
Lemma chain_inside t b l : chain t b l -> Forall (fun x => x < lenN t) l.
Proof. induction 1; constructor; [eapply nthN_bound; eassumption|assumption]. Qed.
Lemma chain_short t b l : chain t b l -> lenN l <= lenN t.
Proof. intros H. apply nodup_short; [eapply chain_nodup; exact H|eapply chain_inside; exact H]. Qed.

Lemma follow_loop_chain t b l : table_size t -> chain t b l -> forall fuel, (List.length l < fuel)%nat ->
  follow_loop fuel t b = Ok l.
Proof.
  intros T C. unfold table_size in T. induction C as [b H|b c l H C IH]; intros [|fuel] L; try (cbn in L; lia); cbn [follow_loop].
  - destruct (_ || _); [reflexivity|]. rewrite nthN_out by exact H. reflexivity.
  - pose proof (nthN_bound _ _ _ H) as Hb. unfold Eof, Bat, MetaBat.
    replace ((b =? _) || (b =? _) || (b =? _)) with false by lia. rewrite H.
    destruct (N.leb_spec (lenN t) c) as [K|K].
    + inversion C as [|? ? ? Hc]; subst; [reflexivity|]. apply nthN_bound in Hc. lia.
    + rewrite IH by (cbn in L; lia). reflexivity.
Qed.
Lemma chain_follow_loop t fuel : table_size t -> forall b l, follow_loop fuel t b = Ok l -> chain t b l.
Proof.
  intros T. unfold table_size in T. induction fuel as [|k IH]; intros b l H; [discriminate|]. cbn [follow_loop] in H.
  destruct (_ || _) eqn:E.
  - injection H as <-. constructor. unfold Eof, Bat, MetaBat in E. lia.
  - destruct (nthN t b) as [c|] eqn:Eb.
    + destruct (N.leb_spec (lenN t) c) as [K|K].
      * injection H as <-. econstructor; [exact Eb|]. constructor. exact K.
      * destruct (follow_loop k t c) as [m| | |] eqn:Ec; try discriminate. injection H as <-.
        econstructor; [exact Eb|]. apply IH. exact Ec.
    + injection H as <-. constructor. destruct (N.le_gt_cases (lenN t) b) as [K|K]; [exact K|].
      destruct (nthN_ex t b K) as [x Hx]. congruence.
Qed.

(** C52: the outcome is the chain *)
Lemma follow_iff t b l : table_size t -> (follow t b = Ok l <-> chain t b l).
Proof.
  intros T. unfold follow. destruct (N.leb_spec (lenN t) b) as [K|K].
  - split; intros H.
    + injection H as <-. constructor. exact K.
    + inversion H as [|? ? ? Hb]; subst; [reflexivity|]. apply nthN_bound in Hb. lia.
  - split; [apply chain_follow_loop; exact T|]. intros C. apply follow_loop_chain; [exact T|exact C|].
    pose proof (chain_short _ _ _ C) as L. unfold lenN in L. lia.
Qed.
Lemma follow_loop_cases fuel t : forall b, (exists l, follow_loop fuel t b = Ok l) \/ follow_loop fuel t b = Fuel.
Proof.
  induction fuel as [|k IH]; intros b; [right; reflexivity|]. cbn [follow_loop].
  destruct (_ || _); [left; eexists; reflexivity|]. destruct (nthN t b) as [c|]; [|left; eexists; reflexivity].
  destruct (_ <=? _); [left; eexists; reflexivity|]. destruct (IH c) as [[l ->]| ->]; [left; eexists; reflexivity|right; reflexivity].
Qed.
Lemma follow_cases t b : (exists l, follow t b = Ok l) \/ follow t b = Fuel.
Proof. unfold follow. destruct (_ <=? _); [left; eexists; reflexivity|]. apply follow_loop_cases. Qed.

(** ** Cycles *)
Lemma links_step t b c l : links t b c -> chain t b l -> exists m, chain t c m /\ (List.length m < List.length l)%nat.
Proof.
  intros L. revert l. induction L as [b c H|b c d H L IH]; intros l C; inversion C as [b' K|b' c' l' K C']; subst.
  - apply nthN_bound in H. lia.
  - rewrite H in K. injection K as <-. exists l'. split; [exact C'|cbn; lia].
  - apply nthN_bound in H. lia.
  - rewrite H in K. injection K as <-. destruct (IH l' C') as (m & Cm & Lm). exists m. split; [exact Cm|cbn; lia].
Qed.
Lemma endless_no_chain t b : endless t b -> forall l, ~ chain t b l.
Proof.
  intros (x & Hx & Hc) l C.
  assert (E : exists m, chain t x m).
  { destruct Hx as [->|Hx]; [exists l; exact C|]. destruct (links_step _ _ _ _ Hx C) as (m & H & _). exists m. exact H. }
  destruct E as (m & Cm). destruct (links_step _ _ _ _ Hc Cm) as (m' & Cm' & L).
  rewrite (chain_fun _ _ _ Cm _ Cm') in L. lia.
Qed.

Inductive path (t : list N) : N -> list N -> N -> Prop :=
| path_nil b : path t b [] b
| path_cons b c l d : nthN t b = Some c -> path t c l d -> path t b (b :: l) d.
Lemma path_inside t b l d : path t b l d -> Forall (fun x => x < lenN t) l.
Proof. induction 1; constructor; [eapply nthN_bound; eassumption|assumption]. Qed.
Lemma path_app t b l1 l2 d : path t b (l1 ++ l2) d -> exists c, path t b l1 c /\ path t c l2 d.
Proof.
  revert b. induction l1 as [|x l1 IH]; intros b H; [exists b; split; [constructor|exact H]|].
  cbn [app] in H. inversion H as [|? c ? ? Hb P]; subst. destruct (IH c P) as (e & P1 & P2).
  exists e. split; [econstructor; eassumption|exact P2].
Qed.
Lemma path_links t b l c : path t b l c -> (l = [] /\ b = c) \/ links t b c.
Proof.
  induction 1 as [b|b c l d H P IH]; [left; split; reflexivity|]. right.
  destruct IH as [[_ ->]|IH]; [apply links_one; exact H|eapply links_more; eassumption].
Qed.
Lemma path_head t b x l c : path t b (x :: l) c -> x = b.
Proof. intros H. inversion H; subst; reflexivity. Qed.
Lemma fuel_path fuel t : forall b, follow_loop fuel t b = Fuel -> exists l c, path t b l c /\ List.length l = fuel.
Proof.
  induction fuel as [|k IH]; intros b H; [exists [], b; split; [constructor|reflexivity]|]. cbn [follow_loop] in H.
  destruct (_ || _); [discriminate|]. destruct (nthN t b) as [c|] eqn:Eb; [|discriminate].
  destruct (_ <=? _); [discriminate|]. destruct (IH c) as (l & d & P & L).
  { destruct (follow_loop k t c); try discriminate. reflexivity. }
  exists (b :: l), d. split; [econstructor; eassumption|cbn; lia].
Qed.
Lemma follow_endless t b : table_size t -> (follow t b = Fuel <-> endless t b).
Proof.
  intros T. split.
  - unfold follow. destruct (_ <=? _); [discriminate|]. intros H. destruct (fuel_path _ _ _ H) as (l & c & P & L).
    destruct (dup_dec l) as [D|(l1 & x & l2 & l3 & ->)].
    + pose proof (nodup_short l (lenN t) D (path_inside _ _ _ _ P)) as K. unfold lenN in K. lia.
    + destruct (path_app _ _ _ _ _ P) as (e & P1 & P2). pose proof (path_head _ _ _ _ _ P2) as ->.
      change (e :: l2 ++ e :: l3) with ((e :: l2) ++ e :: l3) in P2.
      destruct (path_app _ _ _ _ _ P2) as (e' & P3 & P4). pose proof (path_head _ _ _ _ _ P4) as ->.
      exists e'. split.
      * destruct (path_links _ _ _ _ P1) as [[_ ->]|K]; [left; reflexivity|right; exact K].
      * destruct (path_links _ _ _ _ P3) as [[K _]|K]; [discriminate|exact K].
  - intros E. destruct (follow_cases t b) as [[l H]|H]; [|exact H].
    apply follow_iff in H; [|exact T]. destruct (endless_no_chain _ _ E _ H).
Qed.
(** More rounds do not help. *)
Lemma follow_forever t b : table_size t -> follow t b = Fuel -> forall fuel, follow_loop fuel t b = Fuel.
Proof.
  intros T H fuel. destruct (follow_loop_cases fuel t b) as [[l K]|K]; [|exact K].
  apply chain_follow_loop in K; [|exact T]. apply (follow_iff t b l T) in K. congruence.
Qed.
