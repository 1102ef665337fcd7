(** The version of a workbook and the sheets its records belong to. *)
From Coq Require Import List NArith ZArith Bool Lia Strings.String.
From Coq Require Import ZifyBool ZifyNat ZifyN.
From Verif Require Import Lib.Res Lib.Bytes Lib.BytesFacts Lib.Text Common.Model Common.Spec Common.ReadProofs
     Excel.Model Excel.Records Excel.Engine Excel.Spec Excel.Statements Excel.EngineProofs.
Import ListNotations.
Local Open Scope N_scope.
Ltac Zify.zify_post_hook ::= Z.div_mod_to_equations.
Arguments N.pow : simpl never.
Arguments N.mul : simpl never.
Arguments N.add : simpl never.

(** ** An induction over the records that are seen *)
Definition first_of (k : nat) (b : bytes) : option (N * bytes) := hd_error (seen_from k b).

(** The turn for a record, and where the next one is *)
Lemma turn_at p S s : s_index s + 4 < lenN S -> lenN S < 2 ^ 30 ->
  exists t n d,
    turn p S s = process p (lenN S) t n d (at_index (s_index s + 4) s) /\ n < 2 ^ 16 /\
    ((lenN d = n /\ s_index s + 4 + n < lenN S /\
      forall k, seen_from (Datatypes.S k) (dropN (s_index s) S) =
        (t, d) :: seen_from k (dropN (s_index s + 4 + n) S)) \/
     (d = [] /\ lenN S <= s_index s + 4 + n /\ forall k, seen_from (Datatypes.S k) (dropN (s_index s) S) = [(t, [])])).
Proof.
  intros Hi HS. pose proof (turn_eq p S s (s_index s) eq_refl Hi HS) as E. cbv zeta in E.
  set (b := dropN (s_index s) S) in *. set (t := le (takeN 2 b)) in *. set (n := le (takeN 2 (dropN 2 b))) in *.
  assert (L4 : lenN (dropN 4 b) = lenN S - (s_index s + 4)) by (subst b; rewrite dropN_dropN, lenN_dropN; lia).
  assert (Hb : 4 < lenN b) by (subst b; rewrite lenN_dropN; lia).
  exists t, n, (if n <? lenN (dropN 4 b) then takeN n (dropN 4 b) else []). split; [exact E|].
  split; [apply le2_lt|]. destruct (N.ltb_spec n (lenN (dropN 4 b))) as [H|H].
  - left. split; [rewrite lenN_takeN; lia|]. split; [lia|]. intros k. rewrite seen_step by exact Hb. cbv zeta.
    fold t n. replace (n <? lenN (dropN 4 b)) with true by lia. f_equal. f_equal. subst b. rewrite !dropN_dropN. f_equal. lia.
  - right. split; [reflexivity|]. split; [lia|]. intros k. rewrite seen_step by exact Hb. cbv zeta.
    fold t n. replace (n <? lenN (dropN 4 b)) with false by lia. reflexivity.
Qed.

(** The parts of the state after a record *)
Lemma process_parts p max t n d s s' : process p max t n d s = Ok s' ->
  exists s1 r, continued t d s = Ok s1 /\ ParseRecord p (map fst (s_list s1)) (version_of s1) t d = Ok r /\
    (exists s2, match r with Some r => add p max r s1 | None => Ok s1 end = Ok s2 /\ s' = at_index (u32 (s_index s2 + n)) s2).
Proof.
  unfold process. intros H. apply bind_ok in H. destruct H as (s1 & H1 & H).
  apply bind_ok in H. destruct H as (r & Hr & H). apply bind_ok in H. destruct H as (s2 & H2 & [= <-]).
  exists s1, r. split; [exact H1|]. split; [exact Hr|]. exists s2. split; [exact H2|reflexivity].
Qed.

(** ** The version *)
Lemma add_vers p max r s s' : add p max r s = Ok s' ->
  s_vers s' = (if bof_type (r_type r) && (s_index s =? 4) then Some (le (takeN 2 (r_data r))) else s_vers s) /\
  (bof_type (r_type r) = true -> s_index s = 4 -> 2 <= lenN (r_data r)).
Proof.
  unfold add. intros H. apply bind_ok in H. destruct H as (s1 & H & [= <-]). cbn [s_vers].
  destruct (bof_type (r_type r)) eqn:E; cbn [andb].
  - unfold substream in H. destruct (N.eqb_spec (s_index s) 4) as [I|I].
    + apply bind_ok in H. destruct H as (v & HL & [= <-]). cbn [s_vers]. unfold load in HL.
      apply bind_ok in HL. destruct HL as (x & HL & [= <-]). apply slice_inv in HL. destruct HL as (HL & -> & _).
      rewrite dropN_0. split; [reflexivity|]. intros _ _. lia.
    + split; [|congruence]. destruct (version_of s =? 1536).
      * destruct (look _ _); injection H as <-; reflexivity.
      * destruct (version_of s =? 1280); injection H as <-; reflexivity.
  - split; [|discriminate]. destruct (r_type r =? 133).
    + unfold bound_sheet in H. apply bind_ok in H. destruct H as (x & _ & H).
      destruct (_ && _); [discriminate|]. injection H as <-. reflexivity.
    + destruct (r_type r =? 47); injection H as <-; reflexivity.
Qed.
Lemma process_vers p max t n d s s' : process p max t n d s = Ok s' -> s_index s <> 4 -> s_vers s' = s_vers s.
Proof.
  intros H NI. apply process_parts in H. destruct H as (s1 & r & H1 & Hr & s2 & H2 & ->). cbn [at_index s_vers].
  apply continued_same in H1. destruct H1 as (_ & _ & _ & _ & _ & _ & _ & I1 & V1).
  destruct r as [r|]; [|injection H2 as <-; exact V1].
  apply add_vers in H2. destruct H2 as [-> _]. rewrite I1. replace (s_index s =? 4) with false by lia.
  rewrite andb_false_r. exact V1.
Qed.
Lemma turn_index p S s s' : s_index s + 4 < lenN S -> lenN S < 2 ^ 30 -> turn p S s = Ok s' ->
  s_index s + 4 <= s_index s' /\ s_index s' < 2 ^ 32 - 4.
Proof.
  intros Hi HS H. destruct (turn_at p S s Hi HS) as (t & n & d & E & Hn & _). rewrite E in H.
  apply process_ents in H. cbn [at_index s_index] in H. destruct H as [[_ ->]|(_ & _ & ->)].
  - destruct (t =? 47); [rewrite (u32_small (s_index s + 4 + lenN S)) by lia|]; rewrite u32_small by lia; lia.
  - rewrite u32_small by lia. lia.
Qed.
Lemma loop_vers p S k : lenN S < 2 ^ 30 -> forall s, 0 < s_index s < 2 ^ 32 - 4 ->
  match loop p S k s with Done s' | Threw _ s' => s_vers s' = s_vers s | _ => True end.
Proof.
  intros HS. induction k as [|k IH]; intros s Hs; [exact I|]. cbn [loop].
  rewrite (u32_small (s_index s + 4)) by lia. destruct (N.ltb_spec (s_index s + 4) (lenN S)) as [Hi|Hi]; [|reflexivity].
  destruct (turn p S s) as [s1|e| |] eqn:ET; try exact I; [|reflexivity].
  pose proof (turn_index p S s s1 Hi HS ET) as HI. destruct (turn_at p S s Hi HS) as (t & n & d & E & _).
  rewrite E in ET. apply process_vers in ET; [|cbn; lia]. cbn [at_index s_vers] in ET.
  specialize (IH s1 ltac:(lia)). rewrite ET in IH. exact IH.
Qed.

(** What happens when no version is known: no record is looked into. *)
Lemma process_blank p max t n d s : s_vers s = None -> s_current s = None ->
  ~ (bof_type t = true /\ s_index s = 4) ->
  exists s', process p max t n d s = Ok s' /\ s_vers s' = None /\ s_current s' = None.
Proof.
  intros HV HC HB. unfold process, continued. unfold version_of at 1. rewrite HV.
  change (0 =? 1536) with false. cbn [andb bind]. unfold version_of at 1. rewrite HV. unfold ParseRecord, record_body.
  change (0 =? 1536) with false; change (0 =? 1280) with false; change (0 =? 1024) with false;
  change (0 =? 768) with false; change (0 =? 512) with false. cbv iota.
  assert (G : exists s2, add p max (mkRec t d false (if bof_type t then BOF else Fields [])) s = Ok s2 /\
                         s_vers s2 = None /\ s_current s2 = None).
  { unfold add. cbn [r_type]. destruct (bof_type t) eqn:E.
    - unfold substream. replace (s_index s =? 4) with false by (symmetry; apply N.eqb_neq; tauto).
      unfold version_of. rewrite HV. cbn [bind]. change (0 =? 1536) with false. change (0 =? 1280) with false.
      cbn [bind]. eexists. split; [reflexivity|]. split; reflexivity || exact HV.
    - destruct (t =? 133).
      + unfold bound_sheet, new_sheet, version_of. rewrite HV, HC. change (0 =? 1536) with false. change (0 =? 1280) with false.
        cbn [bind]. rewrite andb_false_r. cbn [bind]. eexists. split; [reflexivity|]. split; reflexivity.
      + destruct (t =? 47); cbn [bind]; eexists; (split; [reflexivity|]; split; assumption). }
  destruct G as (s2 & GA & GV & GC).
  destruct (bof_type t); cbn [bind]; rewrite GA; cbn [bind]; eexists; (split; [reflexivity|]; split; assumption).
Qed.
Lemma loop_blank p S : lenN S < 2 ^ 30 -> forall k s, 0 < s_index s < 2 ^ 32 - 4 -> s_vers s = None -> s_current s = None ->
  lenN S < N.of_nat k + s_index s -> k <> O ->
  exists s', loop p S k s = Done s' /\ s_vers s' = None.
Proof.
  intros HS. induction k as [|k IH]; intros s Hs HV HC HK NK; [congruence|]. cbn [loop].
  rewrite (u32_small (s_index s + 4)) by lia. destruct (N.ltb_spec (s_index s + 4) (lenN S)) as [Hi|Hi].
  2:{ exists s. split; [reflexivity|exact HV]. }
  destruct (turn_at p S s Hi HS) as (t & n & d & E & _).
  destruct (process_blank p (lenN S) t n d (at_index (s_index s + 4) s)) as (s' & EP & V' & C').
  1:{ exact HV. } 1:{ exact HC. } 1:{ cbn [at_index s_index]. lia. }
  rewrite EP in E. rewrite E. pose proof (turn_index p S s s' Hi HS E). apply IH; try assumption; lia.
Qed.

Lemma bof_in t : bof_type t = true <-> begins_stream t.
Proof.
  unfold bof_type, begins_stream. cbn [In]. split; intros H.
  - lia.
  - destruct H as [<-|[<-|[<-|[<-|[]]]]]; reflexivity.
Qed.

(** The first turn *)
Lemma first_turn p S s' : lenN S < 2 ^ 30 -> 4 < lenN S -> turn p S state0 = Ok s' ->
  exists t d more, seen S = (t, d) :: more /\
    ((begins_stream t /\ 2 <= lenN d /\ s_vers s' = Some (le (takeN 2 d))) \/ (~ begins_stream t /\ s_vers s' = None)).
Proof.
  intros HS HL H. destruct (turn_at p S state0 HL HS) as (t & n & d & E & _ & HD). rewrite E in H. cbn [state0 s_index] in *.
  apply process_parts in H. destruct H as (s1 & r & H1 & Hr & s2 & H2 & ->). cbn [at_index s_vers].
  apply continued_same in H1. destruct H1 as (_ & _ & _ & _ & _ & _ & _ & I1 & V1).
  cbn in I1, V1.
  assert (R : exists b, r = Some (mkRec t d false b)).
  { unfold ParseRecord, version_of in Hr. rewrite V1 in Hr. cbn [record_body] in Hr. unfold record_body in Hr.
    cbn in Hr. destruct (bof_type t); injection Hr as <-; eexists; reflexivity. }
  destruct R as (b & ->). apply add_vers in H2. destruct H2 as [EV EB]. cbn [r_type r_data] in *. rewrite I1 in *.
  change (4 =? 4) with true in EV. rewrite andb_true_r in EV.
  assert (G : exists more, seen S = (t, d) :: more).
  { rewrite <- (seen_fuel (Datatypes.S (List.length S)) S) by lia.
    destruct HD as [(_ & _ & HD)|(-> & _ & HD)]; specialize (HD (List.length S)); rewrite dropN_0 in HD; rewrite HD; eexists; reflexivity. }
  destruct G as (more & G). exists t, d, more. split; [exact G|].
  destruct (bof_type t) eqn:EBT.
  - left. split; [apply bof_in; exact EBT|]. split; [apply EB; reflexivity|exact EV].
  - right. split; [rewrite <- bof_in; congruence|]. rewrite EV. exact V1.
Qed.

Lemma version_of_workbook p what S x : lenN S < 2 ^ 30 -> Detailer p what S = Ok x ->
  exists t d more v, seen S = (t, d) :: more /\ begins_stream t /\ 2 <= lenN d /\ v = le (takeN 2 d) /\
    x_ext x = mkExt (B "xls") (B "Microsoft Office Excel Workbook") (GetVersion_Excel v) v (GetVersion_Excel v).
Proof.
  intros HS H. unfold Detailer, ParseStream in H.
  assert (L : match loop p S (Datatypes.S (List.length S)) state0 with
              | Done s | Threw _ s => s_vers s <> None -> exists t d more, seen S = (t, d) :: more /\
                  begins_stream t /\ 2 <= lenN d /\ s_vers s = Some (le (takeN 2 d))
              | _ => True end).
  { clear H. cbn [loop]. change (u32 (s_index state0 + 4)) with 4. destruct (N.ltb_spec 4 (lenN S)) as [Hi|Hi]; [|cbn; congruence].
    destruct (turn p S state0) as [s1|e| |] eqn:ET; try exact I; [|cbn; congruence].
    pose proof (turn_index p S state0 s1 Hi HS ET) as HI. cbn [state0 s_index] in HI.
    pose proof (loop_vers p S (List.length S) HS s1 ltac:(lia)) as LV.
    apply first_turn in ET; [|assumption..]. destruct ET as (t & d & more & ES & [(BT & LD & EV)|(_ & EV)]).
    - destruct (loop _ _ _ _); try exact I; intros _; exists t, d, more; rewrite LV; auto.
    - destruct (loop _ _ _ _); try exact I; rewrite LV, EV; congruence. }
  destruct (loop _ _ _ _) as [s|e s| |]; try discriminate;
    (destruct (s_vers s) as [v|]; [|discriminate]; injection H as <-;
     destruct (L ltac:(discriminate)) as (t & d & more & ES & BT & LD & [= ->]);
     exists t, d, more, (le (takeN 2 d)); auto).
Qed.

Lemma name_of_version v : version_name v (GetVersion_Excel v).
Proof.
  unfold GetVersion_Excel, version_name, versions.
  repeat match goal with |- context[?c =? ?k] => destruct (N.eqb_spec c k) as [->|?];
    [left; cbn [In]; tauto|] end.
  right. split; [|reflexivity]. cbn [map fst In]. lia.
Qed.

(** Without a first BOF the version is read before it is set. *)
Lemma no_version p what S : lenN S < 2 ^ 30 ->
  (forall t d more, seen S = (t, d) :: more -> ~ begins_stream t) -> Detailer p what S = UB.
Proof.
  intros HS HB. unfold Detailer, ParseStream.
  assert (L : exists s, loop p S (Datatypes.S (List.length S)) state0 = Done s /\ s_vers s = None).
  2:{ destruct L as (s & -> & ->). reflexivity. }
  cbn [loop]. change (u32 (s_index state0 + 4)) with 4. destruct (N.ltb_spec 4 (lenN S)) as [Hi|Hi].
  2:{ exists state0. split; reflexivity. }
  destruct (turn_at p S state0 Hi HS) as (t & n & d & E & _ & HD). cbn [state0 s_index] in *.
  assert (G : exists more, seen S = (t, d) :: more).
  { rewrite <- (seen_fuel (Datatypes.S (List.length S)) S) by lia.
    destruct HD as [(_ & _ & HD)|(-> & _ & HD)]; specialize (HD (List.length S)); rewrite dropN_0 in HD; rewrite HD; eexists; reflexivity. }
  destruct G as (more & G). apply HB in G.
  destruct (process_blank p (lenN S) t n d (at_index (0 + 4) state0)) as (s' & EP & V' & C').
  1,2:reflexivity. 1:{ rewrite bof_in. tauto. }
  change state0 with (mkState [] [] 0 [] None 0 0 None) in *.
  rewrite EP in E. rewrite E. pose proof (turn_index p S state0 s' Hi HS E) as HI. cbn [state0 s_index] in HI.
  apply loop_blank; try assumption; unfold lenN in *; lia.
Qed.

Lemma first_short p what S t d more : lenN S < 2 ^ 30 -> seen S = (t, d) :: more -> lenN d < 2 -> Detailer p what S = UB.
Proof.
  intros HS ES HD. destruct (bof_type t) eqn:EB.
  2:{ apply no_version; [exact HS|]. intros t' d' m' E'. rewrite ES in E'. injection E' as <- <- <-. rewrite <- bof_in. congruence. }
  unfold Detailer, ParseStream. cbn [loop]. change (u32 (s_index state0 + 4)) with 4.
  destruct (N.ltb_spec 4 (lenN S)) as [Hi|Hi].
  2:{ rewrite <- (seen_fuel (Datatypes.S (List.length S)) S), seen_short in ES by lia. discriminate. }
  destruct (turn_at p S state0 Hi HS) as (t' & n & d' & E & _ & HX). cbn [state0 s_index] in *.
  assert (G : t' = t /\ d' = d).
  { rewrite <- (seen_fuel (Datatypes.S (List.length S)) S) in ES by lia.
    destruct HX as [(_ & _ & HX)|(-> & _ & HX)]; specialize (HX (List.length S)); rewrite dropN_0 in HX; rewrite HX in ES;
      injection ES as -> ->; auto. }
  destruct G as [-> ->]. rewrite E. set (s0 := at_index (0 + 4) state0). unfold process.
  assert (E1 : continued t d s0 = Ok s0) by reflexivity. rewrite E1. cbn [bind].
  assert (E2 : ParseRecord p (map fst (s_list s0)) (version_of s0) t d = Ok (Some (mkRec t d false BOF))).
  { unfold ParseRecord, record_body. change (version_of s0) with 0. cbn [N.eqb]. rewrite EB. reflexivity. }
  rewrite E2. cbn [bind].
  assert (E3 : add p (lenN S) (mkRec t d false BOF) s0 = UB).
  { unfold add. cbn [r_type]. rewrite EB. unfold substream. change (s_index s0 =? 4) with true. cbv iota. unfold load. cbn [r_data].
    rewrite slice_ub by lia. reflexivity. }
  rewrite E3. reflexivity.
Qed.

(** ** Where the records belong *)
Lemma last_index_app k o l : forall i,
  last_index k i (l ++ [o]) = if o =? k then Some (i + lenN l) else last_index k i l.
Proof.
  induction l as [|a l IH]; intros i; cbn [app last_index].
  - rewrite N.add_0_r. destruct (o =? k); reflexivity.
  - rewrite IH, lenN_cons. destruct (o =? k); [f_equal; lia|reflexivity].
Qed.

Record in_step (v : N) (c : place) (s : state) : Prop := {
  is_pos : p_pos c = s_index s; is_vers : s_vers s = Some v; is_home : p_home c = s_current s;
  is_sheets : lenN (p_offsets c) = lenN (s_sheets s);
  is_last : v = 1280 -> p_last c = s_next s /\ s_next s <= s_index s;
  is_look : v = 1536 -> forall k, look k (s_lookup s) = last_index k 0 (p_offsets c);
  is_old : v <> 1280 -> v <> 1536 -> s_current s = None }.
Definition ents2 (s : state) : list (N * bytes * option N) := map (fun e => (entry e, snd e)) (rev (s_list s)).

(** An added record, for a state whose index is behind the header *)
Lemma add_step p max v t d b s i c s' :
  0 < i -> i + 4 < 2 ^ 31 -> s_index s = i + 4 ->
  p_pos c = i -> s_vers s = Some v -> p_home c = s_current s -> lenN (p_offsets c) = lenN (s_sheets s) ->
  (v = 1280 -> p_last c = s_next s /\ s_next s <= i) ->
  (v = 1536 -> forall k, look k (s_lookup s) = last_index k 0 (p_offsets c)) ->
  (v <> 1280 -> v <> 1536 -> s_current s = None) ->
  (v = 1536 -> t = 0x85 -> exists n, b = BoundSheet8 n) ->
  add p max (mkRec t d false b) s = Ok s' ->
  let c' := place_of v c t d in
  s_list s' = (mkRec t d false b, p_home c') :: s_list s /\
  (t <> 0x2F -> s_index s' = i + 4) /\
  s_vers s' = Some v /\ p_home c' = s_current s' /\ lenN (p_offsets c') = lenN (s_sheets s') /\
  (v = 1280 -> p_last c' = s_next s' /\ s_next s' <= i + 4) /\
  (v = 1536 -> forall k, look k (s_lookup s') = last_index k 0 (p_offsets c')) /\
  (v <> 1280 -> v <> 1536 -> s_current s' = None) /\
  p_pos c' = i.
Proof.
  intros Hi Hi2 SI PP SV PH PO PL PK PN PB H. cbv zeta. unfold add in H. apply bind_ok in H.
  destruct H as (s1 & H & [= <-]). cbn [s_list s_index s_vers s_current s_sheets s_next s_lookup] in *. cbn [r_type] in H.
  assert (OP : opens c t = bof_type t) by (unfold opens; rewrite PP; replace (i =? 0) with false by lia; cbn [negb]; rewrite andb_true_r; reflexivity).
  destruct (bof_type t) eqn:EB.
  - assert (t <> 0x85) as N5 by (intros ->; discriminate). assert (T5 : t =? 133 = false) by lia.
    unfold substream in H. rewrite SI in H. replace (i + 4 =? 4) with false in H by lia.
    unfold version_of in H. rewrite SV in H. unfold place_of. change 0x600 with 1536. change 0x500 with 1280.
    destruct (N.eqb_spec v 1536) as [->|V8].
    + unfold place8. rewrite T5, OP. cbn [p_home p_offsets p_last p_pos]. rewrite PP.
      assert (SW : subw 32 (i + 4) 4 = i).
      { unfold subw. change (4 mod 2 ^ 32) with 4. replace (i + 4 + 2 ^ 32 - 4) with (i + 1 * 2 ^ 32) by lia.
        rewrite N.mod_add by lia. apply N.mod_small. lia. }
      rewrite SW, PK in H by reflexivity.
      destruct (last_index i 0 (p_offsets c)) as [j|]; injection H as <-;
        cbn [s_list s_index s_vers s_current s_sheets s_next s_lookup orelse];
        rewrite ?PH; repeat split; auto; try congruence; try discriminate; lia.
    + destruct (N.eqb_spec v 1280) as [->|V5].
      * unfold place5. rewrite T5, OP. cbn [p_home p_offsets p_last p_pos]. destruct (PL eq_refl) as [PL1 PL2].
        injection H as <-. cbn [s_list s_index s_vers s_current s_sheets s_next s_lookup]. rewrite PO, PH, PL1.
        destruct (s_current s) as [j|].
        -- rewrite (u32_small (s_next s + 1)) by lia. repeat split; auto; try congruence; lia.
        -- repeat split; auto; try congruence; lia.
      * unfold place0. rewrite T5. cbn [p_home p_offsets p_last p_pos]. injection H as <-.
        cbn [s_list s_index s_vers s_current s_sheets s_next s_lookup]. rewrite PH, (PN V5 V8).
        repeat split; auto; try congruence; intros ->; congruence.
  - destruct (N.eqb_spec t 0x85) as [->|N5].
    + unfold bound_sheet in H. apply bind_ok in H. destruct H as (x & HX & H).
      destruct (_ && _); [discriminate|]. injection H as <-.
      cbn [s_list s_index s_vers s_current s_sheets s_next s_lookup]. unfold new_sheet, version_of in HX. rewrite SV in HX.
      unfold place_of. change 0x600 with 1536. change 0x500 with 1280. rewrite lenN_app.
      destruct (N.eqb_spec v 1536) as [->|V8].
      * destruct (PB eq_refl eq_refl) as (nm & ->). cbn [r_body r_data] in HX.
        apply bind_ok in HX. destruct HX as (o & HO & HX). apply bind_ok in HX. destruct HX as (v4 & _ & HX).
        apply bind_ok in HX. destruct HX as (t5 & _ & [= <-]). unfold load in HO. apply bind_ok in HO.
        destruct HO as (y & HO & [= <-]). apply slice_inv in HO. destruct HO as (_ & -> & _). rewrite dropN_0. cbn [fst snd].
        unfold place8. change (133 =? 133) with true. rewrite OP. cbn [p_home p_offsets p_last p_pos]. rewrite lenN_app, PO.
        repeat split; auto; try congruence; try discriminate; try lia.
        intros _ k. cbn [look]. rewrite last_index_app, PK by reflexivity.
        rewrite N.add_0_l, PO. reflexivity.
      * destruct (N.eqb_spec v 1280) as [->|V5].
        -- unfold place5. change (133 =? 133) with true. rewrite OP. cbn [p_home p_offsets p_last p_pos]. rewrite lenN_app, PO.
           destruct (PL eq_refl) as [PL1 PL2]. repeat split; auto; try congruence; lia.
        -- unfold place0. change (133 =? 133) with true. cbn [p_home p_offsets p_last p_pos]. rewrite lenN_app, PO.
           repeat split; auto; try congruence; intros ->; congruence.
    + assert (T5 : t =? 133 = false) by lia.
      assert (PE : place_of v c t d = c).
      { unfold place_of. destruct (v =? 0x600); [|destruct (v =? 0x500)]; unfold place8, place5, place0; rewrite T5, ?OP; destruct c; reflexivity. }
      rewrite PE. destruct (N.eqb_spec t 0x2F) as [->|N2]; injection H as <-;
        cbn [s_list s_index s_vers s_current s_sheets s_next s_lookup];
        (split; [rewrite PH; reflexivity|]; split; [congruence|]; split; [exact SV|]; split; [exact PH|]; split; [exact PO|];
         split; [intros V; destruct (PL V); lia|]; split; [exact PK|]; split; [exact PN|exact PP]).
Qed.

Lemma bound8_body p l t d b : record_body p l 1536 t d = Ok b -> t = 0x85 -> exists n, b = BoundSheet8 n.
Proof.
  intros H ->. change (record_body p l 1536 133 d) with (BoundSheet8Record p d) in H. unfold BoundSheet8Record in H.
  apply bind_ok in H. destruct H as (s & _ & [= <-]). eexists. reflexivity.
Qed.
Lemma continued_step t d v c s s1 : in_step v c s -> continued t d s = Ok s1 -> in_step v c s1 /\ ents2 s1 = ents2 s.
Proof.
  intros IS H. apply continued_same in H. destruct H as (_ & E & E1 & E2 & E3 & E4 & E5 & E6 & E7).
  split; [destruct IS; constructor; rewrite ?E1, ?E2, ?E3, ?E4, ?E5, ?E6, ?E7; assumption|].
  unfold ents2. rewrite !map_rev. f_equal. exact E.
Qed.
Lemma continued_index t d s s1 i : continued t d s = Ok s1 -> continued t d (at_index i s) = Ok (at_index i s1).
Proof.
  unfold continued, version_of. cbn [at_index s_vers s_list]. destruct (_ && _).
  - destruct (continue_prev _ _); cbn [bind]; [|discriminate..]. intros [= <-]. reflexivity.
  - intros [= <-]. reflexivity.
Qed.
Lemma continued_index_inv t d s s1 i : continued t d (at_index i s) = Ok s1 -> exists s2, continued t d s = Ok s2 /\ s1 = at_index i s2.
Proof.
  unfold continued, version_of. cbn [at_index s_vers s_list]. destruct (_ && _).
  - destruct (continue_prev _ _); cbn [bind]; [|discriminate..]. intros [= <-]. eexists. split; reflexivity.
  - intros [= <-]. eexists. split; reflexivity.
Qed.

Lemma process_step p max v c t n d s s' :
  in_step v c s -> 0 < s_index s -> s_index s + 4 < 2 ^ 30 -> n < 2 ^ 16 -> max < 2 ^ 30 ->
  process p max t n d (at_index (s_index s + 4) s) = Ok s' ->
  (ents2 s' = ents2 s ++ [(t, d, p_home (place_of v c t d))] /\
   (t <> 0x2F -> lenN d = n -> in_step v (after (place_of v c t d) d) s')) \/
  (In t content_types /\ ents2 s' = ents2 s /\ (lenN d = n -> in_step v (after c d) s')).
Proof.
  intros IS Hi Hi2 Hn HM H. apply process_parts in H. destruct H as (s1 & r & H1 & Hr & s2 & H2 & ->).
  apply continued_index_inv in H1. destruct H1 as (s0 & H1 & ->).
  assert (I0 : s_index s0 = s_index s) by (apply continued_same in H1; tauto).
  destruct (continued_step _ _ _ _ _ _ IS H1) as [IS0 E0]. rewrite <- I0 in *. clear IS H1.
  destruct r as [r|].
  - left. assert (R : exists b, r = mkRec t d false b /\ record_body p (map fst (s_list s0)) v t d = Ok b).
    { unfold ParseRecord, version_of in Hr. cbn [at_index s_vers s_list] in Hr. rewrite (is_vers _ _ _ IS0) in Hr.
      destruct (record_body p (map fst (s_list s0)) v t d) as [b|[]| |]; try discriminate Hr.
      injection Hr as <-. exists b. split; reflexivity. }
    destruct R as (b & -> & RB).
    pose proof (add_step p max v t d b (at_index (s_index s0 + 4) s0) (s_index s0) c s2) as A.
    destruct IS0. cbn [at_index s_index s_vers s_current s_sheets s_next s_lookup s_list] in A.
    specialize (A Hi ltac:(lia) eq_refl is_pos0 is_vers0 is_home0 is_sheets0 is_last0 is_look0 is_old0).
    specialize (A ltac:(intros -> ->; eapply bound8_body; [exact RB|reflexivity]) H2). cbv zeta in A.
    destruct A as (A1 & A2 & A3 & A4 & A5 & A6 & A7 & A8 & A9).
    split.
    + rewrite <- E0. unfold ents2. cbn [at_index s_list]. rewrite A1. cbn [rev]. rewrite map_app. reflexivity.
    + intros NT EN. specialize (A2 NT). rewrite A2. rewrite u32_small by lia.
      constructor; cbn [after p_pos p_offsets p_home p_last at_index s_index s_vers s_current s_sheets s_next s_lookup]; try assumption.
      * rewrite A9, EN. reflexivity.
      * intros V. destruct (A6 V) as [? ?]. split; [assumption|lia].
  - right. injection H2 as <-. split; [eapply parse_none; exact Hr|]. split; [exact E0|]. intros EN.
    cbn [at_index s_index]. rewrite u32_small by lia. destruct IS0.
    constructor; cbn [after p_pos p_offsets p_home p_last at_index s_index s_vers s_current s_sheets s_next s_lookup]; try assumption.
    + rewrite is_pos0, EN. reflexivity.
    + intros V. destruct (is_last0 V). split; [assumption|lia].
Qed.

Lemma loop_placed p S v : lenN S < 2 ^ 30 -> forall k s c,
  in_step v c s -> 0 < s_index s -> s_index s <= lenN S ->
  match loop p S k s with
  | Done s' => exists got, ents2 s' = ents2 s ++ got /\ placed (place_of v) c (seen_from k (dropN (s_index s) S)) got
  | Threw _ s' => exists a b got, ents2 s' = ents2 s ++ got /\
      seen_from k (dropN (s_index s) S) = a ++ b /\ b <> [] /\ placed (place_of v) c a got
  | _ => True
  end.
Proof.
  intros HS. induction k as [|k IH]; intros s c IS H0 Hs; [exact I|]. cbn [loop].
  rewrite (u32_small (s_index s + 4)) by lia.
  destruct (N.ltb_spec (s_index s + 4) (lenN S)) as [Hi|Hi].
  2:{ exists []. rewrite app_nil_r. split; [reflexivity|]. rewrite seen_short by (rewrite lenN_dropN; lia). constructor. }
  destruct (turn_at p S s Hi HS) as (t & n & d & E & Hn & HD).
  destruct (turn p S s) as [s'|e| |] eqn:ET; try exact I.
  2:{ exists [], (seen_from (Datatypes.S k) (dropN (s_index s) S)), []. rewrite app_nil_r. split; [reflexivity|]. split; [reflexivity|].
      split; [|constructor]. destruct HD as [(_ & _ & HD)|(-> & _ & HD)]; rewrite HD; discriminate. }
  symmetry in E. pose proof (process_ents _ _ _ _ _ _ _ E) as PE. cbn [at_index s_index] in PE.
  apply (process_step p (lenN S) v c) in E; try assumption; [|lia].
  assert (OV : lenN S <= s_index s' -> s_index s' < 2 ^ 32 - 4 -> loop p S k s' <> Endless -> loop p S k s' = Done s').
  { intros A B. apply loop_over. rewrite u32_small by lia. lia. }
  destruct (turn_index p S s s' Hi HS ET) as [_ IB].
  destruct E as [[EE ES]|(It & EE & ES)].
  - destruct (N.eq_dec t 0x2F) as [->|NT].
    + assert (IE : lenN S <= s_index s').
      { destruct PE as [[_ PE]|(_ & PE & _)].
        - change (47 =? 47) with true in PE. cbv iota in PE. rewrite (u32_small (s_index s + 4 + lenN S)) in PE by lia.
          rewrite u32_small in PE by lia. lia.
        - exfalso. apply (f_equal (@List.length _)) in EE. unfold ents2 in EE.
          apply (f_equal (@List.length _)) in PE. unfold ents in PE. cbn [at_index s_list] in PE.
          rewrite app_length, !map_length in *. cbn in EE. lia. }
      specialize (OV IE IB). destruct (loop p S k s') eqn:EL; try exact I; specialize (OV ltac:(discriminate)); try discriminate OV.
      injection OV as ->. rewrite EE.
      exists [(0x2F, d, p_home (place_of v c 0x2F d))]. split; [reflexivity|].
      assert (PH : p_home (place_of v c 47 d) = p_home c).
      { unfold place_of. destruct (v =? _); [reflexivity|]. destruct (v =? _); reflexivity. }
      rewrite PH. destruct HD as [(_ & _ & HD)|(-> & _ & HD)]; rewrite HD; apply pl_encrypted.
    + assert (IX : s_index s' = s_index s + 4 + n).
      { destruct PE as [[_ PE]|(_ & PE & _)].
        - replace (t =? 47) with false in PE by lia. rewrite u32_small in PE by lia. exact PE.
        - exfalso. apply (f_equal (@List.length _)) in EE. unfold ents2 in EE.
          apply (f_equal (@List.length _)) in PE. unfold ents in PE. cbn [at_index s_list] in PE.
          rewrite app_length, !map_length in *. cbn in EE. lia. }
      destruct HD as [(LD & HC & HD)|(-> & HC & HD)]; rewrite HD.
      * specialize (IH s' (after (place_of v c t d) d) (ES NT LD) ltac:(lia) ltac:(lia)). rewrite IX in IH.
        destruct (loop p S k s') as [s''|e' s''| |]; try exact I.
        -- destruct IH as (got & EG & RG). exists ((t, d, p_home (place_of v c t d)) :: got).
           rewrite EG, EE, <- app_assoc. split; [reflexivity|]. apply pl_next; assumption.
        -- destruct IH as (a & b & got & EG & EA & NC & RG).
           exists ((t, d) :: a), b, ((t, d, p_home (place_of v c t d)) :: got).
           rewrite EG, EE, <- app_assoc. split; [reflexivity|]. rewrite EA. split; [reflexivity|]. split; [exact NC|].
           apply pl_next; assumption.
      * specialize (OV ltac:(lia) IB). destruct (loop p S k s') eqn:EL; try exact I; specialize (OV ltac:(discriminate)); try discriminate OV.
        injection OV as ->. rewrite EE. exists [(t, [], p_home (place_of v c t []))]. split; [reflexivity|].
        apply pl_next; [exact NT|constructor].
  - assert (IX : s_index s' = s_index s + 4 + n).
    { destruct PE as [[PE _]|(_ & _ & PE)].
      - exfalso. apply (f_equal (@List.length _)) in EE. unfold ents2 in EE.
        apply (f_equal (@List.length _)) in PE. unfold ents in PE. cbn [at_index s_list] in PE.
        rewrite app_length, !map_length in *. cbn in PE. lia.
      - rewrite u32_small in PE by lia. exact PE. }
    destruct HD as [(LD & HC & HD)|(-> & HC & HD)]; rewrite HD.
    + specialize (IH s' (after c d) (ES LD) ltac:(lia) ltac:(lia)). rewrite IX in IH.
      destruct (loop p S k s') as [s''|e' s''| |]; try exact I.
      * destruct IH as (got & EG & RG). exists got. rewrite EG, EE. split; [reflexivity|]. apply pl_missing; assumption.
      * destruct IH as (a & b & got & EG & EA & NC & RG). exists ((t, d) :: a), b, got.
        rewrite EG, EE. split; [reflexivity|]. rewrite EA. split; [reflexivity|]. split; [exact NC|].
        apply pl_missing; assumption.
    + specialize (OV ltac:(lia) IB). destruct (loop p S k s') eqn:EL; try exact I; specialize (OV ltac:(discriminate)); try discriminate OV.
      injection OV as ->. rewrite EE. exists []. rewrite app_nil_r. split; [reflexivity|].
      apply pl_missing; [exact It|constructor].
Qed.

(** The first turn brings the state in step. *)
Lemma first_step p S s' : lenN S < 2 ^ 30 -> 4 < lenN S -> turn p S state0 = Ok s' -> s_vers s' <> None ->
  exists t d v, s_vers s' = Some v /\ ents2 s' = [(t, d, None)] /\ begins_stream t /\ p_home (place_of v place_start t d) = None /\
    (forall k, seen_from (Datatypes.S k) S = (t, d) :: seen_from k (dropN (s_index s') S)) /\
    (s_index s' <= lenN S -> in_step v (after (place_of v place_start t d) d) s').
Proof.
  intros HS HL H NV. destruct (turn_at p S state0 HL HS) as (t & n & d & E & Hn & HD). rewrite E in H. cbn [state0 s_index] in *.
  apply process_parts in H. destruct H as (s1 & r & H1 & Hr & s2 & H2 & ->).
  assert (s1 = at_index (0 + 4) state0) as -> by (injection H1 as <-; reflexivity). clear H1.
  assert (R : exists b, r = Some (mkRec t d false b)).
  { unfold ParseRecord, version_of in Hr. cbn in Hr. unfold record_body in Hr.
    cbn in Hr. destruct (bof_type t); injection Hr as <-; eexists; reflexivity. }
  destruct R as (b & ->). cbn [at_index s_vers] in NV.
  pose proof (add_vers _ _ _ _ _ H2) as [EV EB]. cbn [r_type r_data at_index s_index s_vers state0] in EV, EB.
  change (0 + 4 =? 4) with true in EV. rewrite andb_true_r in EV.
  destruct (bof_type t) eqn:EBT; [|congruence]. rewrite EV in *.
  assert (T5 : t =? 133 = false) by (unfold bof_type in EBT; lia).
  assert (PS : place_of (le (takeN 2 d)) place_start t d = place_start).
  { assert (OP : opens place_start t = false) by (unfold opens; apply andb_false_r).
    unfold place_of. destruct (_ =? 0x600); [|destruct (_ =? 0x500)]; unfold place8, place5, place0; rewrite T5, ?OP; reflexivity. }
  unfold add in H2. cbn [r_type] in H2. rewrite EBT in H2. apply bind_ok in H2. destruct H2 as (s3 & HS3 & [= <-]).
  unfold substream in HS3. cbn [at_index s_index state0 r_data] in HS3. change (0 + 4 =? 4) with true in HS3. cbv iota in HS3.
  apply bind_ok in HS3. destruct HS3 as (v & HL2 & [= <-]). cbn [s_list s_sheets s_cap s_lookup s_current s_next s_vers s_index state0] in *.
  injection EV as Ev. rewrite <- Ev in PS.
  exists t, d, v. cbn [at_index s_vers s_index]. rewrite (u32_small (0 + 4 + n)) by lia. rewrite PS.
  split; [reflexivity|]. split; [reflexivity|]. split; [apply bof_in; exact EBT|]. split; [reflexivity|].
  split.
  - intros k. destruct HD as [(LD & HC & HD)|(-> & HC & HD)]; specialize (HD k); rewrite dropN_0 in HD; rewrite HD; [reflexivity|].
    rewrite seen_short by (rewrite lenN_dropN; lia). reflexivity.
  - intros HC. destruct HD as [(LD & _ & _)|(-> & HC2 & _)].
    + constructor; cbn [after place_start p_pos p_offsets p_home p_last at_index s_index s_vers s_current s_sheets s_next s_lookup]; try reflexivity; try lia.
      all: intros _; reflexivity.
    + exfalso. specialize (EB eq_refl eq_refl). cbn in EB. lia.
Qed.

Lemma all_placed p what S x : lenN S < 2 ^ 30 -> Detailer p what S = Ok x ->
  exists a c, seen S = a ++ c /\
    placed (place_of (Version (x_ext x))) place_start a (map (fun e => (entry e, snd e)) (x_list x)) /\
    (x_error x = [] -> has_text what -> c = []).
Proof.
  intros HS H. unfold Detailer, ParseStream in H.
  assert (L : match loop p S (Datatypes.S (List.length S)) state0 with
              | Done s => forall v, s_vers s = Some v -> placed (place_of v) place_start (seen S) (ents2 s)
              | Threw _ s => forall v, s_vers s = Some v -> exists a c, seen S = a ++ c /\ placed (place_of v) place_start a (ents2 s)
              | _ => True end).
  { clear H. rewrite <- (seen_fuel (Datatypes.S (List.length S)) S) by lia.
    cbn [loop]. change (u32 (s_index state0 + 4)) with 4. destruct (N.ltb_spec 4 (lenN S)) as [Hi|Hi]; [|cbn; congruence].
    destruct (turn p S state0) as [s1|e| |] eqn:ET; try exact I; [|cbn; congruence].
    pose proof (turn_index p S state0 s1 Hi HS ET) as HI. cbn [state0 s_index] in HI.
    pose proof (loop_vers p S (List.length S) HS s1 ltac:(lia)) as LV.
    destruct (s_vers s1) as [v|] eqn:EV.
    2:{ destruct (loop _ _ _ _); try exact I; intros v; rewrite LV; discriminate. }
    apply first_step in ET; [|assumption..|congruence].
    destruct ET as (t & d & v' & EV' & E2 & BT & PH & SS & IS). rewrite EV in EV'. injection EV' as <-.
    rewrite SS. assert (NF : t <> FilePass) by (unfold begins_stream, FilePass in *; cbn [In] in BT; lia).
    destruct (N.le_gt_cases (s_index s1) (lenN S)) as [HC|HC].
    - pose proof (loop_placed p S v HS (List.length S) s1 (after (place_of v place_start t d) d) (IS HC) ltac:(lia) HC) as LP.
      destruct (loop p S (List.length S) s1) as [s|e s| |]; try exact I.
      + intros v'. rewrite LV. intros [= <-]. destruct LP as (got & EG & PG). rewrite EG, E2. cbn [app].
        rewrite <- PH. apply pl_next; assumption.
      + intros v'. rewrite LV. intros [= <-]. destruct LP as (a & b & got & EG & EA & _ & PG). exists ((t, d) :: a), b.
        rewrite EA, EG, E2. split; [reflexivity|]. cbn [app]. rewrite <- PH. apply pl_next; assumption.
    - pose proof (loop_over p S (List.length S) s1) as LO. rewrite u32_small in LO by lia. specialize (LO ltac:(lia)).
      destruct (loop p S (List.length S) s1) eqn:EL; try exact I; specialize (LO ltac:(discriminate)); try discriminate LO.
      injection LO as ->. intros v'. rewrite EV. intros [= <-]. rewrite E2, seen_short by (rewrite lenN_dropN; lia).
      rewrite <- PH. apply pl_next; [exact NF|constructor]. }
  destruct (loop _ _ _ _) as [s|e s| |]; try discriminate.
  - destruct (s_vers s) as [v|]; [|discriminate]. injection H as <-. specialize (L v eq_refl).
    exists (seen S), []. rewrite app_nil_r. cbn. auto.
  - destruct (s_vers s) as [v|]; [|discriminate]. injection H as <-. destruct (L v eq_refl) as (a & c & E & P).
    exists a, c. cbn. split; [exact E|]. split; [exact P|]. intros W T. destruct (T e). exact W.
Qed.
