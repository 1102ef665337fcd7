(** Every reported record was built from its data, given the records before it. *)
From Coq Require Import List NArith ZArith Bool Lia Strings.String.
From Coq Require Import ZifyBool ZifyNat ZifyN.
From Verif Require Import Lib.Res Lib.Bytes Lib.BytesFacts Lib.Text Common.Model Common.Spec Common.ReadProofs
     Excel.Number Excel.Model Excel.Records Excel.Engine Excel.Spec Excel.Statements Excel.EngineProofs
     Excel.SheetProofs Excel.SheetList Excel.OutputSafety.
Import ListNotations.
Local Open Scope N_scope.
Ltac Zify.zify_post_hook ::= Z.div_mod_to_equations.
Arguments N.pow : simpl never.
Arguments N.mul : simpl never.
Arguments N.add : simpl never.

(** ** What a record is built from does not depend on moved bytes *)
Definition core (r : rec) : N * bytes * body := (r_type r, r_data r, r_body r).
Definition same_core (a b : option rec) : Prop := option_map core a = option_map core b.

Lemma find_core t l : forall l', map core l = map core l' ->
  same_core (find (fun r => r_type r =? t) l) (find (fun r => r_type r =? t) l').
Proof.
  unfold same_core. induction l as [|r l IH]; intros [|r' l'] H; try discriminate; [reflexivity|].
  cbn [map] in H. injection H as E1 E2 E3 E4. cbn [find]. rewrite E1. destruct (r_type r' =? t).
  - cbn. unfold core. congruence.
  - apply IH. exact E4.
Qed.
Lemma prev_core t l l' : map core l = map core l' ->
  match prev_of_type t l, prev_of_type t l' with
  | Ok a, Ok b => same_core a b
  | UB, UB => True
  | _, _ => False
  end.
Proof.
  intros H. unfold prev_of_type. destruct l as [|r l], l' as [|r' l']; try discriminate; [exact I|].
  apply (find_core t (r :: l) (r' :: l')). exact H.
Qed.
Lemma filter_core t l : forall l', map core l = map core l' ->
  map core (filter (fun r => r_type r =? t) l) = map core (filter (fun r => r_type r =? t) l').
Proof.
  induction l as [|r l IH]; intros [|r' l'] H; try discriminate; [reflexivity|].
  cbn [map] in H. injection H as E1 E2 E3 E4. cbn [filter]. rewrite E1. destruct (r_type r' =? t).
  - cbn [map]. rewrite (IH l' E4). unfold core at 1 3. congruence.
  - apply IH. exact E4.
Qed.
Lemma nth_core t i l l' : map core l = map core l' -> same_core (nth_of_type t i l) (nth_of_type t i l').
Proof.
  intros H. unfold same_core, nth_of_type. rewrite <- !nth_error_map. f_equal. apply filter_core.
  rewrite !map_rev, H. reflexivity.
Qed.
Lemma name_core r r' : core r = core r' -> GetName r = GetName r'.
Proof. unfold core, GetName. intros [= _ _ ->]. reflexivity. Qed.
Lemma text_core l l' t : map core l = map core l' -> ptg_text l t = ptg_text l' t.
Proof.
  intros H. destruct t as [s|i|i]; cbn [ptg_text]; [reflexivity| |];
    [pose proof (nth_core 0x18 (subw 32 i 1) l l' H) as E|pose proof (nth_core 0x23 (subw 32 i 1) l l' H) as E];
    unfold same_core in E;
    (destruct (nth_of_type _ _ l), (nth_of_type _ _ l'); try discriminate E; [|reflexivity];
     cbn in E; injection E; intros; rewrite (name_core r r0) by (unfold core; congruence); reflexivity).
Qed.
Lemma formula_core l l' ts : map core l = map core l' -> formula_text l ts = formula_text l' ts.
Proof. intros H. unfold formula_text. f_equal. apply map_ext. intros t. apply text_core. exact H. Qed.

Lemma body_core p l l' v t d : map core l = map core l' -> record_body p l v t d = record_body p l' v t d.
Proof.
  intros H. unfold record_body. destruct (v =? 1536); [|reflexivity]. unfold biff8.
  destruct (t =? 0x06).
  { unfold FormulaRecord. do 6 (match goal with |- bind ?e _ = _ => destruct e; [cbn [bind]|reflexivity..] end).
    do 6 (match goal with |- bind ?e _ = _ => destruct e; [cbn [bind]|reflexivity..] end).
    rewrite (formula_core l l' _ H). reflexivity. }
  destruct (t =? 0x18); [reflexivity|]. destruct (t =? 0x19); [reflexivity|].
  destruct (t =? 0x23).
  { unfold ExternNameRecord. pose proof (prev_core 0x1AE l l' H) as E.
    destruct (prev_of_type 0x1AE l) as [a| | |], (prev_of_type 0x1AE l') as [b| | |]; try contradiction; [|reflexivity].
    cbn [bind]. unfold same_core in E. destruct a as [a|], b as [b|]; try discriminate E; [|reflexivity].
    cbn in E. injection E as _ _ E. rewrite E. reflexivity. }
  do 10 (match goal with |- (if ?b then _ else _) = (if ?b then _ else _) =>
           match b with (t =? 0xFD) => fail 1 | _ => destruct b; [reflexivity|] end end || idtac).
  destruct (t =? 0xFD); [|reflexivity].
  unfold LabelSstRecord. destruct (ReadUInt d (lenN d) 6 true); [|reflexivity..]. cbn [bind].
  pose proof (prev_core 0xFC l l' H) as E.
  destruct (prev_of_type 0xFC l) as [x| | |], (prev_of_type 0xFC l') as [y| | |]; try contradiction; [|reflexivity].
  cbn [bind]. unfold same_core in E. destruct x as [x|], y as [y|]; try discriminate E; [|reflexivity].
  cbn in E. injection E as _ _ E. rewrite E. reflexivity.
Qed.

(** ** The history of the records *)
Fixpoint history (p : platform) (v : N) (l : list (N * bytes * body)) : Prop :=   (* latest first *)
  match l with
  | [] => True
  | (t, d, b) :: r =>
      (r <> [] -> exists before, map core before = r /\ record_body p before v t d = Ok b) /\ history p v r
  end.
Definition cores (s : state) : list (N * bytes * body) := map core (map fst (s_list s)).
Record told (p : platform) (s : state) : Prop := {
  t_first : s_index s = 0 -> s_list s = [];
  t_list : history p (version_of s) (cores s) }.
Lemma continued_cores t d s s' : continued t d s = Ok s' -> cores s' = cores s.
Proof.
  intros H. apply continued_tuple in H. unfold cores. rewrite !map_map.
  apply (f_equal (map (fun x : N * bytes * body * option N => fst x))) in H. rewrite !map_map in H. exact H.
Qed.
Lemma add_list p max r s s' : add p max r s = Ok s' -> exists h, s_list s' = (r, h) :: s_list s.
Proof.
  unfold add. intros H. apply bind_ok in H. destruct H as (s3 & H3 & [= <-]). cbn [s_list].
  exists (s_current s3). f_equal. destruct (bof_type (r_type r)).
  - unfold substream in H3. destruct (s_index s =? 4).
    + apply bind_ok in H3. destruct H3 as (v & _ & [= <-]). reflexivity.
    + destruct (version_of s =? 1536); [destruct (look _ _); injection H3 as <-; reflexivity|].
      destruct (version_of s =? 1280); injection H3 as <-; reflexivity.
  - destruct (r_type r =? 133).
    + unfold bound_sheet in H3. apply bind_ok in H3. destruct H3 as (x & _ & H3).
      destruct (_ && _); [discriminate|]. injection H3 as <-. reflexivity.
    + destruct (r_type r =? 47); injection H3 as <-; reflexivity.
Qed.
Lemma told_step p (S : bytes) s s' t n d : lenN S < 2 ^ 30 -> s_index s + 4 < lenN S -> told p s -> n < 2 ^ 16 ->
  process p (lenN S) t n d (at_index (s_index s + 4) s) = Ok s' -> told p s'.
Proof.
  intros HS Hi K Hn H.
  assert (IX : 0 < s_index s').
  { apply process_ents in H. cbn [at_index s_index] in H. destruct H as [[_ ->]|(_ & _ & ->)].
    - destruct (t =? 47); [rewrite (u32_small (s_index s + 4 + lenN S)) by lia|]; rewrite u32_small by lia; lia.
    - rewrite u32_small by lia. lia. }
  constructor; [lia|].
  apply process_parts in H. destruct H as (s1 & r & H1 & Hr & s2 & H2 & ->).
  pose proof (continued_cores _ _ _ _ H1) as T1.
  apply continued_same in H1. destruct H1 as (_ & _ & _ & _ & _ & _ & _ & E6 & E7).
  cbn [at_index s_index s_vers] in *.
  assert (KL : history p (version_of s1) (cores s1)).
  { rewrite T1. unfold version_of. rewrite E7. exact (t_list _ _ K). }
  destruct r as [r|].
  2:{ injection H2 as <-. exact KL. }
  assert (R : exists b, r = mkRec t d false b /\ record_body p (map fst (s_list s1)) (version_of s1) t d = Ok b).
  { unfold ParseRecord in Hr. destruct (record_body _ _ _ t d) as [b|[]| |]; try discriminate Hr.
    injection Hr as <-. exists b. split; reflexivity. }
  destruct R as (b & -> & RB).
  pose proof (add_vers _ _ _ _ _ H2) as [EV _]. cbn [r_type r_data] in EV. rewrite E6 in EV.
  destruct (add_list _ _ _ _ _ H2) as (h & EL).
  unfold cores, version_of. cbn [at_index s_list s_vers]. rewrite EL, EV. cbn [map fst history core r_type r_data r_body].
  fold (cores s1). destruct (N.eq_dec (s_index s) 0) as [I0|I0].
  - assert (C0 : cores s1 = []) by (rewrite T1; unfold cores; cbn [at_index s_list]; rewrite (t_first _ _ K I0); reflexivity).
    rewrite C0. split; [congruence|exact I].
  - replace (s_index s + 4 =? 4) with false by lia. rewrite andb_false_r.
    split; [|exact KL]. intros _. exists (map fst (s_list s1)). split; [reflexivity|]. exact RB.
Qed.

Lemma all_told p what (S : bytes) x : lenN S < 2 ^ 30 -> Detailer p what S = Ok x ->
  history p (Version (x_ext x)) (map core (map fst (rev (x_list x)))).
Proof.
  intros HS H. unfold Detailer, ParseStream in H.
  pose proof (loop_inv p S (told p) HS (fun s s' t n d Hi Q Hn E => told_step p S s s' t n d HS Hi Q Hn E)
                (Datatypes.S (List.length S)) state0 ltac:(cbn; lia)) as L.
  specialize (L ltac:(constructor; cbn; auto)).
  destruct (loop _ _ _ _) as [s|e s| |]; try discriminate;
    (destruct (s_vers s) as [v|] eqn:EV; [|discriminate]; injection H as <-; cbn [x_ext Version x_list];
     destruct L as [_ L]; unfold version_of in *; rewrite EV in *; rewrite rev_involutive; assumption).
Qed.

Lemma history_app p v a b : history p v (a ++ b) -> history p v b.
Proof. induction a as [|[[t d] y] a IH]; [auto|]. cbn. intros [_ H]. exact (IH H). Qed.

Lemma record_built p what (S : bytes) x a e b : lenN S < 2 ^ 30 -> Detailer p what S = Ok x ->
  x_list x = a ++ e :: b -> a <> [] ->
  built p (rev (map fst a)) (Version (x_ext x)) (r_type (fst e)) (r_data (fst e))
    (mkRec (r_type (fst e)) (r_data (fst e)) false (r_body (fst e))).
Proof.
  intros HS H E HA. apply all_told in H; [|exact HS]. rewrite E, rev_app_distr in H. cbn [rev] in H.
  rewrite <- app_assoc, !map_app in H. apply history_app in H. cbn [app map history core] in H.
  destruct e as [r h]. cbn [fst] in *. destruct H as [H _].
  destruct H as (before & EB & RB).
  { intros Z. apply HA. apply map_eq_nil in Z. apply map_eq_nil in Z. rewrite <- (rev_involutive a), Z. reflexivity. }
  unfold built, ParseRecord. rewrite map_rev in EB. rewrite (body_core p (rev (map fst a)) before) by congruence.
  rewrite RB. reflexivity.
Qed.
