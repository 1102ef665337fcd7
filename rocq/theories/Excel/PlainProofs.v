(** Streams without records whose contents are read. *)
From Coq Require Import List NArith ZArith Bool Lia Strings.String.
From Coq Require Import ZifyBool ZifyNat ZifyN.
From Verif Require Import Lib.Res Lib.Bytes Lib.BytesFacts Lib.Text Common.Model Common.Spec Common.ReadProofs
     Excel.Number Excel.Model Excel.Records Excel.Engine Excel.Spec Excel.Statements Excel.EngineProofs
     Excel.SheetProofs Excel.OutputProofs.
Import ListNotations.
Local Open Scope N_scope.
Ltac Zify.zify_post_hook ::= Z.div_mod_to_equations.
Arguments N.pow : simpl never.
Arguments N.mul : simpl never.
Arguments N.add : simpl never.

Lemma content_spec t : ~ In t content_types -> existsb (N.eqb t) content_types = false.
Proof. intros H. destruct (existsb _ _) eqn:E; [|reflexivity]. destruct (H (in_types t E)). Qed.
Lemma plain_body p l v t d : ~ In t content_types -> exists b, record_body p l v t d = Ok b.
Proof.
  intros H. apply content_spec in H. cbn in H. unfold record_body, biff8, bof_type.
  repeat match goal with
  | |- context[if t =? ?k then _ else _] => destruct (N.eqb_spec t k) as [->|?]; [try discriminate H|]
  | |- context[if ?c then _ else _] => destruct c
  end; try (eexists; reflexivity); try discriminate H.
Qed.

Definition anchored (l : list rec) : Prop := Exists (fun r => r_type r <> 0x3C) l.
Lemma continue_prev_ok n l : anchored l -> exists l', continue_prev n l = Ok l'.
Proof.
  induction 1 as [r l H|r l H IH].
  - unfold continue_prev. cbn. apply N.eqb_neq in H. rewrite H. eexists. reflexivity.
  - destruct IH as (l' & E). unfold continue_prev in *. destruct (r_type r =? 60).
    + rewrite E. eexists. reflexivity.
    + eexists. reflexivity.
Qed.

Lemma process_plain p max t n d s : ~ In t content_types -> (begins_stream t -> s_index s = 4 -> 2 <= lenN d) ->
  (t = 0x3C -> version_of s = 1536 -> anchored (map fst (s_list s))) ->
  exists s', process p max t n d s = Ok s'.
Proof.
  intros NC HB HC. unfold process.
  assert (C : exists s1, continued t d s = Ok s1).
  { unfold continued. destruct (version_of s =? 1536) eqn:EV; [|eexists; reflexivity]. destruct (t =? 60) eqn:ET; [|eexists; reflexivity].
    cbn [andb]. apply N.eqb_eq in EV, ET. destruct (continue_prev_ok (lenN d) _ (HC ET EV)) as (l' & ->). eexists. reflexivity. }
  destruct C as (s1 & C). rewrite C. cbn [bind]. apply continued_same in C. destruct C as (_ & _ & _ & _ & _ & _ & _ & I1 & _).
  destruct (plain_body p (map fst (s_list s1)) (version_of s1) t d NC) as (b & EB). unfold ParseRecord. rewrite EB. cbn [bind].
  assert (A : exists s2, add p max (mkRec t d false b) s1 = Ok s2).
  { unfold add. cbn [r_type]. destruct (bof_type t) eqn:ET.
    - unfold substream. cbn [r_data]. destruct (s_index s1 =? 4) eqn:E4.
      + apply N.eqb_eq in E4. apply bof_in in ET. destruct (load_ok d 0 2) as (x & ->); [specialize (HB ET); lia|]. eexists; reflexivity.
      + destruct (version_of s1 =? 1536); [destruct (look _ _); eexists; reflexivity|].
        destruct (version_of s1 =? 1280); eexists; reflexivity.
    - apply content_spec in NC. cbn in NC. replace (t =? 133) with false by lia. replace (t =? 47) with false by lia. eexists; reflexivity. }
  destruct A as (s2 & ->). cbn [bind]. eexists. reflexivity.
Qed.
Lemma process_anchor p max t n d s s' : process p max t n d s = Ok s' -> ~ In t content_types ->
  (anchored (map fst (s_list s)) \/ t <> 0x3C) -> anchored (map fst (s_list s')).
Proof.
  intros H NC HA. apply process_ents in H. destruct H as [[EE _]|[H _]]; [|contradiction].
  assert (G : forall s, anchored (map fst (s_list s)) <-> Exists (fun e => fst e <> 0x3C) (ents s)).
  { intros u. unfold anchored, ents. rewrite !Exists_exists. split.
    - intros (r & I & N). apply in_map_iff in I. destruct I as (e & <- & I). exists (entry e). split; [|exact N].
      apply in_map. rewrite <- in_rev. exact I.
    - intros (e & I & N). apply in_map_iff in I. destruct I as (f & <- & I). rewrite <- in_rev in I. exists (fst f). split; [apply in_map; exact I|exact N]. }
  rewrite G in *. rewrite EE. rewrite Exists_app. destruct HA as [HA|HA]; [left; exact HA|right; constructor; exact HA].
Qed.

Lemma loop_plain p S : lenN S < 2 ^ 30 -> forall k s, 0 < s_index s -> s_index s < 2 ^ 31 -> anchored (map fst (s_list s)) ->
  (List.length (dropN (s_index s) S) < k)%nat -> Forall (fun r => ~ In (fst r) content_types) (seen_from k (dropN (s_index s) S)) ->
  exists s', loop p S k s = Done s'.
Proof.
  intros HS. induction k as [|k IH]; intros s H0 Hs A HL F; [lia|]. cbn [loop].
  rewrite (u32_small (s_index s + 4)) by lia.
  destruct (N.ltb_spec (s_index s + 4) (lenN S)) as [Hi|Hi]; [|eexists; reflexivity].
  destruct (turn_at p S s Hi HS) as (t & n & d & E & Hn & HD).
  assert (NC : ~ In t content_types) by (destruct HD as [(_ & _ & HD)|(-> & _ & HD)]; rewrite HD in F; inversion F; assumption).
  destruct (process_plain p (lenN S) t n d (at_index (s_index s + 4) s) NC) as (s1 & EP).
  { cbn [at_index s_index]. lia. }
  { intros _ _. exact A. }
  rewrite E, EP. pose proof EP as EP2. apply process_anchor in EP; [|exact NC|left; exact A].
  apply process_ents in EP2. destruct EP2 as [[_ IX]|[H _]]; [|contradiction]. cbn [at_index s_index] in IX.
  assert (NT : t =? 47 = false) by (apply content_spec in NC; cbn in NC; lia). rewrite NT in IX. rewrite u32_small in IX by lia.
  destruct HD as [(LD & HC & HD)|(-> & HC & HD)].
  - apply IH; try lia; try assumption.
    + rewrite IX. rewrite !dropN_skipn, !skipn_length in *. unfold lenN in *. lia.
    + rewrite HD in F. inversion F; subst. rewrite IX. assumption.
  - assert (K : (1 <= k)%nat) by (rewrite dropN_skipn, skipn_length in HL; unfold lenN in *; lia).
    destruct k as [|k]; [lia|]. cbn [loop]. rewrite IX, (u32_small (s_index s + 4 + n + 4)) by lia.
    replace (s_index s + 4 + n + 4 <? lenN S) with false by lia. eexists. reflexivity.
Qed.
Lemma reported_plain a b : Forall (fun r => ~ In (fst r) content_types) a -> reported a b -> b = a.
Proof.
  intros F R. induction R as [|t d a b N R IH|t d a b I R IH|d a].
  - reflexivity.
  - inversion F; subst. f_equal. apply IH. assumption.
  - inversion F as [|? ? X _]; subst. contradiction.
  - inversion F as [|? ? X _]; subst. exfalso. apply X. vm_compute. tauto.
Qed.
Lemma all_plain p what (S : bytes) t d more : lenN S < 2 ^ 30 -> seen S = (t, d) :: more -> begins_stream t -> 2 <= lenN d ->
  Forall (fun r => ~ In (fst r) content_types) (seen S) ->
  exists x, Detailer p what S = Ok x /\ entries x = seen S /\ x_error x = [].
Proof.
  intros HS ES HB HD F. assert (HL : 4 < lenN S).
  { destruct (N.lt_ge_cases 4 (lenN S)) as [H|H]; [exact H|]. unfold seen in ES. rewrite seen_short in ES by exact H. discriminate. }
  assert (ST : exists s, loop p S (Datatypes.S (List.length S)) state0 = Done s /\ s_vers s <> None).
  { cbn [loop]. replace (u32 (s_index state0 + 4)) with 4 by reflexivity. replace (4 <? lenN S) with true by lia.
    destruct (turn_at p S state0 HL HS) as (t' & n & d' & E & Hn & HX). cbn [state0 s_index] in *.
    rewrite <- (seen_fuel (Datatypes.S (List.length S)) S) in ES by lia. rewrite N.add_0_l in *.
    assert (ET : t' = t /\ d' = d).
    { destruct HX as [(_ & _ & HX)|(-> & _ & HX)]; rewrite dropN_0 in HX; rewrite HX in ES; injection ES; auto. }
    destruct ET as [-> ->].
    assert (NC : ~ In t content_types).
    { rewrite <- (seen_fuel (Datatypes.S (List.length S)) S), ES in F by lia. inversion F; assumption. }
    destruct (process_plain p (lenN S) t n d (at_index 4 state0) NC) as (s1 & EP).
    { intros _ _. exact HD. }
    { discriminate. }
    assert (ET1 : turn p S state0 = Ok s1) by (rewrite <- EP; exact E). pose proof (first_turn p S s1 HS HL ET1) as V. rewrite ET1.
    assert (NV : s_vers s1 <> None).
    { destruct V as (t2 & d2 & m2 & E2 & [(B1 & B2 & ->)|[B1 _]]); [discriminate|].
      rewrite <- (seen_fuel (Datatypes.S (List.length S)) S), ES in E2 by lia. injection E2 as <- <- <-. contradiction. }
    pose proof (process_anchor _ _ _ _ _ _ _ EP NC) as A. pose proof EP as EP2. apply process_ents in EP2.
    destruct EP2 as [[_ IX]|[H _]]; [|contradiction]. cbn [at_index s_index] in IX.
    assert (NT : t =? 47 = false) by (apply content_spec in NC; cbn in NC; lia). rewrite NT in IX. rewrite u32_small in IX by lia.
    assert (A' : anchored (map fst (s_list s1))) by (apply A; right; unfold begins_stream in HB; cbn [In] in HB; lia).
    assert (LP : exists s', loop p S (List.length S) s1 = Done s').
    { destruct HX as [(LD & HC & HX)|(-> & HC & HX)].
      - apply loop_plain; try lia; try assumption.
        + rewrite IX, dropN_skipn, skipn_length. unfold lenN in *. lia.
        + rewrite <- (seen_fuel (Datatypes.S (List.length S)) S) in F by lia. specialize (HX (List.length S)). rewrite dropN_0 in HX. rewrite HX in F.
          inversion F; subst. rewrite IX. assumption.
      - cbn in HD. lia. }
    destruct LP as (s' & LP). exists s'. rewrite LP. split; [reflexivity|].
    pose proof (loop_vers p S (List.length S) HS s1 ltac:(lia)) as LV. rewrite LP in LV. congruence. }
  destruct ST as (s & ST & NV). unfold Detailer, ParseStream. rewrite ST. destruct (s_vers s) as [v|] eqn:EV; [|congruence].
  eexists. split; [reflexivity|].
  pose proof (loop_reported p S HS (Datatypes.S (List.length S)) state0 ltac:(cbn; lia)) as L. rewrite ST in L.
  cbn [s_index state0] in L. rewrite dropN_0, (seen_fuel (Datatypes.S (List.length S)) S ltac:(lia)) in L.
  destruct L as (got & EG & RG). apply (reported_plain _ _ F) in RG. subst got. split; [|reflexivity]. exact EG.
Qed.
Lemma plain_stream p what t d l r : Forall record_ok ((t, d) :: l) -> record_ok r -> lenN (stream_of ((t, d) :: l ++ [r])) < 2 ^ 30 ->
  begins_stream t -> 2 <= lenN d -> Forall (fun r => ~ In (fst r) content_types) ((t, d) :: l ++ [r]) ->
  exists x, Detailer p what (stream_of ((t, d) :: l ++ [r])) = Ok x /\ x_error x = [] /\
    entries x = without_last_data ((t, d) :: l) r.
Proof.
  intros Fl Hr HL HB HD F. change ((t, d) :: l ++ [r]) with (((t, d) :: l) ++ [r]) in *.
  pose proof (seen_stream ((t, d) :: l) r Fl Hr) as E.
  destruct (all_plain p what (stream_of (((t, d) :: l) ++ [r])) t d (l ++ match snd r with [] => [] | _ => [(fst r, [])] end)) as (x & EX & EN & ER); try assumption.
  - rewrite E. apply Forall_app in F. destruct F as [F1 F2]. unfold without_last_data. apply Forall_app. split; [exact F1|].
    destruct (snd r); constructor; [|constructor]. inversion F2; assumption.
  - exists x. rewrite EX, EN, ER, E. auto.
Qed.
