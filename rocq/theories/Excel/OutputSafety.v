(** When writing the result reads outside of the bytes of a record. *)
From Coq Require Import List NArith ZArith Bool Lia Strings.String.
From Coq Require Import ZifyBool ZifyNat ZifyN.
From Verif Require Import Lib.Res Lib.Bytes Lib.BytesFacts Lib.Text Common.Model Common.Spec Common.ReadProofs
     Excel.Number Excel.Model Excel.Records Excel.Engine Excel.Spec Excel.Statements Excel.EngineProofs
     Excel.SheetProofs Excel.SheetList.
Import ListNotations.
Local Open Scope N_scope.
Ltac Zify.zify_post_hook ::= Z.div_mod_to_equations.
Arguments N.pow : simpl never.
Arguments N.mul : simpl never.
Arguments N.add : simpl never.

(** ** Every reported record comes from its data. *)
Definition tuple (e : rec * option N) := (r_type (fst e), r_data (fst e), r_body (fst e), snd e).
Lemma continue_prev_body n l l' : continue_prev n l = Ok l' ->
  map (fun r => (r_type r, r_data r, r_body r)) l' = map (fun r => (r_type r, r_data r, r_body r)) l.
Proof.
  revert l'. induction l as [|r l IH]; intros l'; [discriminate|].
  unfold continue_prev. cbn. destruct (r_type r =? 60).
  - intros H. apply bind_ok in H. destruct H as (t & H & [= <-]). cbn. f_equal. apply IH. exact H.
  - intros [= <-]. reflexivity.
Qed.
Lemma continued_tuple t d s s' : continued t d s = Ok s' -> map tuple (s_list s') = map tuple (s_list s).
Proof.
  unfold continued. destruct ((version_of s =? 1536) && (t =? 60)).
  2:{ intros [= <-]. reflexivity. }
  intros H. apply bind_ok in H. destruct H as (l & H & [= <-]). cbn [s_list].
  apply continue_prev_body in H. rewrite map_map in H.
  revert l H. induction (s_list s) as [|e t' IH]; intros [|r l] H; try discriminate; [reflexivity|].
  cbn in H. injection H as H1 H2 H3 H4. cbn. f_equal; [unfold tuple; cbn; congruence|]. apply IH. exact H4.
Qed.

Definition made (p : platform) (v n : N) (x : N * bytes * body * option N) : Prop :=
  let '(t, d, b, h) := x in
  (exists l, record_body p l v t d = Ok b) /\ match h with Some i => i < n | None => True end.
Definition made_first (x : N * bytes * body * option N) : Prop :=
  let '(t, d, b, h) := x in b = (if bof_type t then BOF else Fields []) /\ h = None.
Definition made_all (p : platform) (v n : N) (l : list (N * bytes * body * option N)) : Prop :=
  match l with
  | [] => True
  | f :: r => made_first f /\ Forall (made p v n) r
  end.
Record kept (p : platform) (s : state) : Prop := {
  k_first : s_index s = 0 -> s_list s = [] /\ s_vers s = None /\ s_current s = None;
  k_later : s_index s <> 0 -> s_list s <> [];
  k_list : made_all p (version_of s) (lenN (s_sheets s)) (map tuple (rev (s_list s)));
  k_home : match s_current s with Some i => i < lenN (s_sheets s) | None => True end;
  k_look : Forall (fun e => snd e < lenN (s_sheets s)) (s_lookup s) }.

Lemma look_in k l i : look k l = Some i -> exists a, In (a, i) l.
Proof.
  induction l as [|[a b] l IH]; cbn [look]; [discriminate|]. destruct (a =? k).
  - intros [= ->]. exists a. left. reflexivity.
  - intros H. destruct (IH H) as (c & I). exists c. right. exact I.
Qed.
Lemma made_more p v n m x : n <= m -> made p v n x -> made p v m x.
Proof. intros H. destruct x as [[[t d] b] h]. intros [M L]. split; [exact M|]. destruct h; [lia|exact I]. Qed.

Lemma made_snoc p v n m l x : l <> [] -> n <= m -> made_all p v n l -> made p v m x -> made_all p v m (l ++ [x]).
Proof.
  destruct l as [|f r]; [congruence|]. intros _ H [A B] C. cbn. split; [exact A|]. apply Forall_app. split; [|constructor; [exact C|constructor]].
  eapply Forall_impl; [|exact B]. intros y. apply made_more. exact H.
Qed.

Lemma kept_step p (S : bytes) s s' t n d : lenN S < 2 ^ 30 -> s_index s + 4 < lenN S -> kept p s -> n < 2 ^ 16 ->
  process p (lenN S) t n d (at_index (s_index s + 4) s) = Ok s' -> kept p s'.
Proof.
  intros HS Hi K Hn H.
  assert (IX : 0 < s_index s').
  { apply process_ents in H. cbn [at_index s_index] in H. destruct H as [[_ ->]|(_ & _ & ->)].
    - destruct (t =? 47); [rewrite (u32_small (s_index s + 4 + lenN S)) by lia|]; rewrite u32_small by lia; lia.
    - rewrite u32_small by lia. lia. }
  apply process_parts in H. destruct H as (s1 & r & H1 & Hr & s2 & H2 & ->).
  pose proof (continued_tuple _ _ _ _ H1) as T1.
  apply continued_same in H1. destruct H1 as (_ & _ & E1 & E2 & E3 & E4 & E5 & E6 & E7).
  cbn [at_index s_list s_sheets s_cap s_lookup s_current s_next s_index s_vers] in *.
  assert (K1 : made_all p (version_of s1) (lenN (s_sheets s1)) (map tuple (rev (s_list s1))) /\
               match s_current s1 with Some i => i < lenN (s_sheets s1) | None => True end /\
               Forall (fun e => snd e < lenN (s_sheets s1)) (s_lookup s1)).
  { destruct K. unfold version_of. rewrite map_rev, T1, <- map_rev, E1, E3, E4, E7. auto. }
  destruct K1 as (KL & KH & KK).
  destruct r as [r|].
  2:{ injection H2 as <-. constructor; cbn [at_index s_list s_sheets s_lookup s_current s_index s_vers]; [lia| |exact KL|exact KH|exact KK].
      intros _ L1. rewrite L1 in T1.
      destruct (N.eq_dec (s_index s) 0) as [I0|I0].
      - destruct (k_first _ _ K I0) as (_ & V0 & _). unfold ParseRecord, version_of in Hr. rewrite E7, V0 in Hr.
        unfold record_body in Hr. cbn [N.eqb] in Hr. destruct (bof_type t); discriminate.
      - apply (k_later _ _ K I0). destruct (s_list s); [reflexivity|discriminate]. }
  assert (R : exists b, r = mkRec t d false b /\ record_body p (map fst (s_list s1)) (version_of s1) t d = Ok b).
  { unfold ParseRecord in Hr. destruct (record_body _ _ _ t d) as [b|[]| |]; try discriminate Hr.
    injection Hr as <-. exists b. split; reflexivity. }
  destruct R as (b & -> & RB).
  pose proof (add_vers _ _ _ _ _ H2) as [EV _]. cbn [r_type r_data] in EV.
  unfold add in H2. apply bind_ok in H2. destruct H2 as (s3 & H3 & [= <-]).
  cbn [at_index s_list s_sheets s_lookup s_current s_index s_vers r_type] in *.
  assert (G : s_list s3 = s_list s1 /\ lenN (s_sheets s1) <= lenN (s_sheets s3) /\
              match s_current s3 with Some i => i < lenN (s_sheets s3) | None => True end /\
              Forall (fun e => snd e < lenN (s_sheets s3)) (s_lookup s3) /\
              (s_index s1 = 4 -> s_current s3 = s_current s1)).
  { destruct (bof_type t).
    - unfold substream in H3. destruct (N.eqb_spec (s_index s1) 4) as [I4|I4].
      + apply bind_ok in H3. destruct H3 as (v & _ & [= <-]). cbn. split; [reflexivity|]. split; [lia|]. split; [assumption|]. split; [assumption|reflexivity].
      + destruct (version_of s1 =? 1536).
        * destruct (look _ _) as [i|] eqn:EL; injection H3 as <-; cbn; (split; [reflexivity|]; split; [lia|]; split; [|split; [assumption|congruence]]); [|assumption].
          apply look_in in EL. destruct EL as (a & EL). rewrite Forall_forall in KK. exact (KK _ EL).
        * destruct (version_of s1 =? 1280); injection H3 as <-; cbn; (split; [reflexivity|]; split; [lia|]; split; [|split; [assumption|congruence]]); [|exact I].
          destruct (match s_current s1 with Some _ => _ | None => _ end <? lenN (s_sheets s1)) eqn:EN; [lia|exact KH].
    - destruct (t =? 133).
      + unfold bound_sheet in H3. apply bind_ok in H3. destruct H3 as (x & HX & H3).
        destruct (_ && _); [discriminate|]. injection H3 as <-. cbn [s_list s_sheets s_lookup s_current]. rewrite lenN_app. change (lenN [fst x]) with 1.
        split; [reflexivity|]. split; [lia|]. split; [destruct (s_current s1); [lia|exact I]|].
        assert (KK' : Forall (fun e => snd e < lenN (s_sheets s1) + 1) (s_lookup s1)) by (eapply Forall_impl; [|exact KK]; cbn; intros; lia).
        split; [|reflexivity].
        unfold new_sheet in HX. destruct (version_of s1 =? 1536).
        * destruct (r_body _); try discriminate HX. apply bind_ok in HX. destruct HX as (o & _ & HX). apply bind_ok in HX.
          destruct HX as (v4 & _ & HX). apply bind_ok in HX. destruct HX as (t5 & _ & [= <-]). cbn [snd]. constructor; [cbn; lia|exact KK'].
        * destruct (version_of s1 =? 1280); [destruct (r_body _); try discriminate HX|]; injection HX as <-; exact KK'.
      + destruct (t =? 47); injection H3 as <-; cbn; (split; [reflexivity|]; split; [lia|]; split; [assumption|]; split; [assumption|reflexivity]). }
  destruct G as (GL & GN & GH & GK & GC). rewrite GL in *. clear H3.
  constructor; cbn [at_index s_list s_sheets s_lookup s_current s_index s_vers]; [lia|discriminate| |exact GH|exact GK].
  cbn [rev]. rewrite map_app. cbn [map]. destruct (N.eq_dec (s_index s) 0) as [I0|I0].
  - destruct (k_first _ _ K I0) as (L0 & V0 & C0). rewrite L0 in T1. destruct (s_list s1); [|discriminate]. cbn [rev map app made_all].
    split; [|constructor]. unfold tuple. cbn [fst snd r_type r_data r_body made_first].
    unfold version_of in RB. rewrite E7, V0 in RB. unfold record_body in RB. cbn [N.eqb] in RB.
    split; [destruct (bof_type t); congruence|]. rewrite GC by lia. congruence.
  - assert (VV : version_of (at_index (u32 (s_index s3 + n)) (mkState ((mkRec t d false b, s_current s3) :: s_list s1)
            (s_sheets s3) (s_cap s3) (s_lookup s3) (s_current s3) (s_next s3) (s_index s3) (s_vers s3))) = version_of s1).
    { unfold version_of. cbn [at_index s_vers]. rewrite EV, E6. replace (s_index s + 4 =? 4) with false by lia. rewrite andb_false_r. reflexivity. }
    rewrite VV. apply (made_snoc _ _ (lenN (s_sheets s1))); [|exact GN|exact KL|].
    + intros L1. apply (k_later _ _ K I0). rewrite map_rev in L1. apply (f_equal (@rev _)) in L1. rewrite rev_involutive, T1 in L1.
      destruct (s_list s); [reflexivity|discriminate].
    + unfold tuple. cbn [fst snd r_type r_data r_body made]. split; [|exact GH]. exists (map fst (s_list s1)). exact RB.
Qed.

Lemma all_kept p what (S : bytes) x : lenN S < 2 ^ 30 -> Detailer p what S = Ok x ->
  made_all p (Version (x_ext x)) (lenN (x_sheets x)) (map tuple (x_list x)).
Proof.
  intros HS H. unfold Detailer, ParseStream in H.
  pose proof (loop_inv p S (kept p) HS (fun s s' t n d Hi Q Hn E => kept_step p S s s' t n d HS Hi Q Hn E)
                (Datatypes.S (List.length S)) state0 ltac:(cbn; lia)) as L.
  specialize (L ltac:(constructor; cbn; auto; congruence)).
  destruct (loop _ _ _ _) as [s|e s| |]; try discriminate;
    (destruct (s_vers s) as [v|] eqn:EV; [|discriminate]; injection H as <-; cbn [x_ext Version x_list x_sheets];
     destruct L; unfold version_of in *; rewrite EV in *; assumption).
Qed.

(** ** Records whose bytes have moved *)
Fixpoint flags_ok (later : list (N * bytes)) (l : list rec) : Prop :=   (* latest first *)
  match l with
  | [] => True
  | r :: t => r_moved r = (negb (r_type r =? Continue) && continued_by later) /\ flags_ok ((r_type r, r_data r) :: later) t
  end.
Lemma continued_by_stop l x : Exists (fun e => fst e <> Continue) l -> continued_by (l ++ [x]) = continued_by l.
Proof.
  induction l as [|[t d] l IH]; intros H; [inversion H|]. cbn [app continued_by]. destruct (N.eqb_spec t Continue) as [->|NE]; [|reflexivity].
  rewrite IH; [reflexivity|]. inversion H as [? ? E|? ? E]; subst; [cbn in E; congruence|exact E].
Qed.
Lemma continued_by_other l t d : t <> Continue -> continued_by (l ++ [(t, d)]) = continued_by l.
Proof.
  intros H. induction l as [|[t' d'] l IH]; cbn [app continued_by].
  - replace (t =? Continue) with false by (symmetry; apply N.eqb_neq; exact H). reflexivity.
  - rewrite IH. reflexivity.
Qed.
Lemma continued_by_more l d : Forall (fun e => fst e = Continue) l ->
  continued_by (l ++ [(Continue, d)]) = continued_by l || (0 <? lenN d).
Proof.
  induction 1 as [|[t' d'] l E H IH]; cbn [app continued_by].
  - rewrite N.eqb_refl, orb_false_r. reflexivity.
  - cbn in E. rewrite E, N.eqb_refl, IH. cbn [andb]. rewrite orb_assoc. reflexivity.
Qed.
Lemma flags_stop l : forall later x, Exists (fun e => fst e <> Continue) later -> flags_ok later l -> flags_ok (later ++ [x]) l.
Proof.
  induction l as [|r l IH]; intros later x H [A B] || intros later x H A; cbn [flags_ok] in *; [exact I|].
  rewrite continued_by_stop by exact H. split; [exact A|]. apply (IH ((r_type r, r_data r) :: later)); [right; exact H|exact B].
Qed.
Lemma flags_other l t d : t <> Continue -> forall later, flags_ok later l -> flags_ok (later ++ [(t, d)]) l.
Proof.
  intros NE. induction l as [|r l IH]; intros later H; cbn [flags_ok] in *; [exact I|]. destruct H as [A B].
  rewrite continued_by_other by exact NE. split; [exact A|]. apply (IH ((r_type r, r_data r) :: later)). exact B.
Qed.
Lemma flags_continue d l : forall later l', Forall (fun e => fst e = Continue) later -> flags_ok later l ->
  continue_prev (lenN d) l = Ok l' -> flags_ok (later ++ [(Continue, d)]) l'.
Proof.
  induction l as [|r l IH]; intros later l' HL H E; [discriminate|]. cbn [flags_ok] in H. destruct H as [A B].
  unfold continue_prev in E. cbn in E. destruct (N.eqb_spec (r_type r) 60) as [ET|ET].
  - apply bind_ok in E. destruct E as (t & E & [= <-]). cbn [flags_ok]. rewrite ET in *. cbn [N.eqb negb andb Pos.eqb] in *.
    split; [exact A|]. apply (IH ((r_type r, r_data r) :: later) t); [constructor; assumption|rewrite ET; exact B|exact E] || 
    (apply (IH ((60, r_data r) :: later) t); [constructor; [reflexivity|assumption]|exact B|exact E]).
  - injection E as <-. cbn [flags_ok r_moved r_type r_data].
    assert (TE : r_type r =? Continue = false) by (apply N.eqb_neq; exact ET). rewrite TE in *. cbn [negb andb] in *.
    rewrite continued_by_more by exact HL. rewrite A. split; [reflexivity|].
    apply (flags_stop l ((r_type r, r_data r) :: later)); [left; exact ET|exact B].
Qed.

Record flagged (s : state) : Prop := {
  f_first : s_index s = 0 -> s_list s = [] /\ s_vers s = None;
  f_list : s_vers s = Some 1536 -> flags_ok [] (map fst (s_list s)) }.
Lemma flagged_step p (S : bytes) s s' t n d : lenN S < 2 ^ 30 -> s_index s + 4 < lenN S -> flagged s -> n < 2 ^ 16 ->
  process p (lenN S) t n d (at_index (s_index s + 4) s) = Ok s' -> flagged s'.
Proof.
  intros HS Hi K Hn H.
  assert (IX : 0 < s_index s').
  { apply process_ents in H. cbn [at_index s_index] in H. destruct H as [[_ ->]|(_ & _ & ->)].
    - destruct (t =? 47); [rewrite (u32_small (s_index s + 4 + lenN S)) by lia|]; rewrite u32_small by lia; lia.
    - rewrite u32_small by lia. lia. }
  constructor; [lia|]. intros HV. apply process_parts in H. destruct H as (s1 & r & H1 & Hr & s2 & H2 & ->).
  pose proof (continued_tuple _ _ _ _ H1) as T1.
  pose proof (continued_same _ _ _ _ H1) as (_ & _ & _ & _ & _ & _ & _ & E6 & E7).
  cbn [at_index s_list s_sheets s_cap s_lookup s_current s_next s_index s_vers] in *.
  destruct r as [r|].
  2:{ injection H2 as <-. rewrite E7 in HV.
      assert (t <> Continue).
      { apply parse_none in Hr. intros ->. unfold Continue, content_types in Hr. cbn [In] in Hr. lia. }
      unfold continued in H1. replace (t =? 60) with false in H1 by (symmetry; apply N.eqb_neq; assumption). rewrite andb_false_r in H1.
      injection H1 as <-. apply (f_list _ K HV). }
  pose proof (add_vers _ _ _ _ _ H2) as [EV _]. pose proof (parse_some _ _ _ _ _ _ Hr) as [RT RD].
  assert (RM : r_moved r = false).
  { unfold ParseRecord in Hr. destruct (record_body _ _ _ t d) as [b|[]| |]; try discriminate Hr. injection Hr as <-. reflexivity. }
  assert (SL : map fst (s_list s2) = r :: map fst (s_list s1)).
  { unfold add in H2. apply bind_ok in H2. destruct H2 as (s3 & H3 & [= <-]). cbn [s_list map fst]. f_equal. f_equal.
    destruct (bof_type (r_type r)).
    - unfold substream in H3. destruct (s_index s1 =? 4).
      + apply bind_ok in H3. destruct H3 as (v & _ & [= <-]). reflexivity.
      + destruct (version_of s1 =? 1536); [destruct (look _ _)|destruct (version_of s1 =? 1280)]; injection H3 as <-; reflexivity.
    - destruct (r_type r =? 133).
      + unfold bound_sheet in H3. apply bind_ok in H3. destruct H3 as (x & HX & H3). destruct (_ && _); [discriminate|]. injection H3 as <-. reflexivity.
      + destruct (r_type r =? 47); injection H3 as <-; reflexivity. }
  rewrite SL. cbn [flags_ok]. rewrite RM, RT, RD. cbn [continued_by]. rewrite andb_false_r. split; [reflexivity|].
  destruct (N.eq_dec (s_index s) 0) as [I0|I0].
  - destruct (f_first _ K I0) as (L0 & V0). rewrite L0 in T1. destruct (s_list s1); [exact I|discriminate].
  - rewrite EV, E6 in HV. replace (s_index s + 4 =? 4) with false in HV by lia. rewrite andb_false_r, E7 in HV.
    pose proof (f_list _ K HV) as FL. unfold continued, version_of in H1. cbn [at_index s_vers] in H1. rewrite HV in H1.
    change (1536 =? 1536) with true in H1. cbn [andb] in H1. destruct (N.eqb_spec t 60) as [->|NE].
    + apply bind_ok in H1. destruct H1 as (l & H1 & [= <-]). cbn [s_list at_index] in *.
      assert (FC : map fst (combine l (map snd (s_list s))) = l).
      { apply continue_prev_body in H1. apply (f_equal (@List.length _)) in H1. rewrite !map_length in H1.
        revert H1. generalize (s_list s). clear. induction l as [|a l IH]; intros [|e m] H; cbn in *; try discriminate; [reflexivity|].
        f_equal. apply IH. congruence. }
      rewrite FC. apply (flags_continue d (map fst (s_list s)) [] l); [constructor|exact FL|exact H1].
    + injection H1 as <-. cbn [at_index s_list]. apply (flags_other (map fst (s_list s)) t d NE []). exact FL.
Qed.
Lemma flags_split l : forall later, flags_ok later l -> forall a r b, l = a ++ r :: b ->
  r_moved r = negb (r_type r =? Continue) && continued_by (map (fun r => (r_type r, r_data r)) (rev a) ++ later).
Proof.
  induction l as [|x l IH]; intros later H a r b E; [destruct a; discriminate|]. cbn [flags_ok] in H. destruct H as [A B].
  destruct a as [|y a]; cbn [app] in E; injection E as -> E.
  - exact A.
  - rewrite (IH _ B a r b E). cbn [rev]. rewrite map_app, <- app_assoc. reflexivity.
Qed.
Lemma all_flagged p what (S : bytes) x : lenN S < 2 ^ 30 -> Detailer p what S = Ok x -> Version (x_ext x) = 0x600 ->
  forall a e b, x_list x = a ++ e :: b ->
  r_moved (fst e) = negb (r_type (fst e) =? Continue) && continued_by (map entry b).
Proof.
  intros HS H. unfold Detailer, ParseStream in H.
  pose proof (loop_inv p S flagged HS (fun s s' t n d Hi Q Hn E => flagged_step p S s s' t n d HS Hi Q Hn E)
                (Datatypes.S (List.length S)) state0 ltac:(cbn; lia)) as L.
  specialize (L ltac:(constructor; cbn; auto; discriminate)).
  assert (G : forall s, flagged s -> s_vers s = Some 1536 -> forall a e b, rev (s_list s) = a ++ e :: b ->
    r_moved (fst e) = negb (r_type (fst e) =? Continue) && continued_by (map entry b)).
  { intros s F V a e b E. pose proof (f_list _ F V) as FL.
    apply (f_equal (@rev _)) in E. rewrite rev_involutive, rev_app_distr in E. cbn [rev] in E. rewrite <- app_assoc in E. cbn [app] in E.
    rewrite E, map_app in FL. cbn [map] in FL.
    rewrite (flags_split _ _ FL (map fst (rev b)) (fst e) (map fst (rev a)) eq_refl). rewrite app_nil_r, <- map_rev, rev_involutive, map_map.
    reflexivity. }
  destruct (loop _ _ _ _) as [s|e s| |]; try discriminate;
    (destruct (s_vers s) as [v|] eqn:EV; [|discriminate]; injection H as <-; cbn [x_ext Version x_list x_sheets];
     intros ->; apply G; assumption).
Qed.

(** ** Results that are values or undefined *)
Definition mild {A} (r : res A) : Prop := match r with Ok _ | UB => True | _ => False end.
Lemma mild_bind {A B} (r : res A) (f : A -> res B) : mild r -> (forall a, mild (f a)) -> mild (bind r f).
Proof. destruct r; cbn; auto. Qed.
Lemma mild_mapM {A B} (f : A -> res B) l : (forall a, In a l -> mild (f a)) -> mild (mapM f l).
Proof.
  induction l as [|a l IH]; cbn [mapM]; intros H; [exact I|].
  apply mild_bind; [apply H; left; reflexivity|]. intros b. apply mild_bind; [apply IH; intros; apply H; right; assumption|].
  intros c. exact I.
Qed.
Lemma mapM_ub {A B} (f : A -> res B) l a : (forall a, In a l -> mild (f a)) -> In a l -> f a = UB -> mapM f l = UB.
Proof.
  induction l as [|c l IH]; intros H I E; [destruct I|]. cbn [mapM]. destruct I as [->|I].
  - rewrite E. reflexivity.
  - pose proof (H c ltac:(left; reflexivity)) as M. destruct (f c); try contradiction M; [|reflexivity].
    cbn [bind]. rewrite IH; [reflexivity| |assumption..]. intros; apply H; right; assumption.
Qed.
