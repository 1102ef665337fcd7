(** Reading the records of a stream. *)
From Coq Require Import List NArith ZArith Bool Lia Strings.String.
From Coq Require Import ZifyBool ZifyNat ZifyN.
From Verif Require Import Lib.Res Lib.Bytes Lib.BytesFacts Lib.Text Common.Model Common.Spec Common.ReadProofs
     Excel.Model Excel.Records Excel.Engine Excel.Spec Excel.Statements.
Import ListNotations.
Local Open Scope N_scope.
Ltac Zify.zify_post_hook ::= Z.div_mod_to_equations.
Arguments N.pow : simpl never.
Arguments N.mul : simpl never.
Arguments N.add : simpl never.

Lemma window_take buf off n : off + n <= lenN buf -> window buf off n (takeN n (dropN off buf)).
Proof.
  intros H. split.
  - rewrite lenN_takeN, lenN_dropN. lia.
  - exists (takeN off buf), (dropN (off + n) buf). split.
    + rewrite <- (takeN_dropN off buf) at 1. f_equal. rewrite <- dropN_dropN.
      rewrite <- (takeN_dropN n (dropN off buf)) at 1. reflexivity.
    + rewrite lenN_takeN. lia.
Qed.
Lemma us_le d off : off + 2 <= lenN d -> off + 1 < 2 ^ 32 ->
  ReadUShort d (lenN d) off false = Ok (le (takeN 2 (dropN off d))).
Proof. intros H K. apply (ReadUShort_value d off _ false K (window_take d off 2 H)). Qed.
Lemma le2_lt (l : bytes) : le (takeN 2 l) < 2 ^ 16.
Proof.
  eapply N.lt_le_trans; [apply le_bound|]. rewrite lenN_takeN.
  change (2 ^ 16) with (256 ^ 2). apply N.pow_le_mono_r; lia.
Qed.

(** ** One turn *)
Lemma turn_eq p S s i :
  s_index s = i -> i + 4 < lenN S -> lenN S < 2 ^ 30 ->
  turn p S s =
    let b := dropN i S in
    let n := le (takeN 2 (dropN 2 b)) in
    process p (lenN S) (le (takeN 2 b)) n
      (if n <? lenN (dropN 4 b) then takeN n (dropN 4 b) else []) (at_index (i + 4) s).
Proof.
  intros <- Hi HS. cbv zeta. unfold turn. rewrite us_le by lia. cbn [bind].
  rewrite (u32_small (s_index s + 2)) by lia. rewrite us_le by lia. cbn [bind].
  rewrite (u32_small (s_index s + 4)) by lia. rewrite !dropN_dropN.
  set (n := le (takeN 2 (dropN (s_index s + 2) S))).
  assert (Hn : n < 2 ^ 16) by apply le2_lt.
  rewrite (u32_small (s_index s + 4 + n)) by lia. rewrite lenN_dropN.
  destruct (N.ltb_spec (s_index s + 4 + n) (lenN S)) as [H|H].
  - rewrite slice_ok by lia. cbn [bind]. replace (n <? lenN S - (s_index s + 4)) with true by lia. reflexivity.
  - cbn [bind]. replace (n <? lenN S - (s_index s + 4)) with false by lia. reflexivity.
Qed.

(** ** The reported records *)
Definition ents (s : state) : list (N * bytes) := map entry (rev (s_list s)).

Lemma continue_prev_same n l l' : continue_prev n l = Ok l' ->
  map (fun r => (r_type r, r_data r)) l' = map (fun r => (r_type r, r_data r)) l.
Proof.
  revert l'. induction l as [|r l IH]; intros l'; [discriminate|].
  unfold continue_prev. cbn. destruct (r_type r =? 60).
  - intros H. apply bind_ok in H. destruct H as (t & H & [= <-]). cbn. f_equal. apply IH. exact H.
  - intros [= <-]. reflexivity.
Qed.
Lemma continued_same t d s s' : continued t d s = Ok s' ->
  ents s' = ents s /\ map (fun e => (entry e, snd e)) (s_list s') = map (fun e => (entry e, snd e)) (s_list s) /\
  s_sheets s' = s_sheets s /\ s_cap s' = s_cap s /\ s_lookup s' = s_lookup s /\ s_current s' = s_current s /\
  s_next s' = s_next s /\ s_index s' = s_index s /\ s_vers s' = s_vers s.
Proof.
  unfold continued. destruct ((version_of s =? 1536) && (t =? 60)).
  2:{ intros [= <-]. repeat split. }
  intros H. apply bind_ok in H. destruct H as (l & H & [= <-]). cbn.
  apply continue_prev_same in H. rewrite map_map in H.
  assert (E : map (fun e => (entry e, snd e)) (combine l (map snd (s_list s))) =
              map (fun e => (entry e, snd e)) (s_list s)).
  { revert l H. induction (s_list s) as [|e t' IH]; intros [|r l] H; try discriminate; [reflexivity|].
    cbn in H. injection H as H1 H2 H3. cbn. f_equal; [unfold entry; cbn; congruence|]. apply IH. exact H3. }
  repeat split; try reflexivity; [|exact E].
  unfold ents. rewrite !map_rev. cbn [s_list]. f_equal.
  apply (f_equal (map fst)) in E. rewrite !map_map in E. exact E.
Qed.

Lemma add_ents p max r s s' : add p max r s = Ok s' ->
  ents s' = ents s ++ [(r_type r, r_data r)] /\
  s_index s' = (if r_type r =? 0x2F then u32 (s_index s + max) else s_index s).
Proof.
  unfold add. intros H. apply bind_ok in H. destruct H as (s1 & H & [= <-]). unfold ents. cbn [s_list s_index rev].
  rewrite map_app. cbn [map entry fst].
  assert (G : s_list s1 = s_list s /\ s_index s1 = (if r_type r =? 0x2F then u32 (s_index s + max) else s_index s)).
  2:{ destruct G as [-> ->]. split; reflexivity. }
  destruct (bof_type (r_type r)) eqn:E.
  - assert (r_type r =? 47 = false) as -> by (unfold bof_type in E; lia).
    unfold substream in H. destruct (s_index s =? 4).
    + apply bind_ok in H. destruct H as (v & _ & [= <-]). split; reflexivity.
    + destruct (version_of s =? 1536).
      * destruct (look _ _); injection H as <-; split; reflexivity.
      * destruct (version_of s =? 1280); injection H as <-; split; reflexivity.
  - destruct (N.eqb_spec (r_type r) 0x85) as [E5|E5].
    + rewrite E5. change (133 =? 47) with false. unfold bound_sheet in H. apply bind_ok in H.
      destruct H as (x & _ & H). destruct (_ && _); [discriminate|]. injection H as <-. split; reflexivity.
    + destruct (r_type r =? 47); injection H as <-; split; reflexivity.
Qed.

Lemma in_types t : existsb (N.eqb t) content_types = true -> In t content_types.
Proof. intros H. apply existsb_exists in H. destruct H as (y & I & E). apply N.eqb_eq in E. subst. exact I. Qed.
Lemma body_throws p l v t d e : record_body p l v t d = Throw e -> In t content_types.
Proof.
  intros H. apply in_types. unfold record_body, biff8, bof_type in H.
  repeat match type of H with
  | (if ?c =? ?k then _ else _) = _ => destruct (N.eqb_spec c k); subst; try reflexivity; try discriminate
  | (if ?c then _ else _) = _ => destruct c; try discriminate
  end.
Qed.
Lemma parse_some p l v t d r : ParseRecord p l v t d = Ok (Some r) -> r_type r = t /\ r_data r = d.
Proof. unfold ParseRecord. destruct (record_body p l v t d) as [b|[]| |]; intros [=]; subst. split; reflexivity. Qed.
Lemma parse_none p l v t d : ParseRecord p l v t d = Ok None -> In t content_types.
Proof.
  unfold ParseRecord. destruct (record_body p l v t d) as [b|[]| |] eqn:E; intros [=].
  eapply body_throws. exact E.
Qed.

Lemma process_ents p max t n d s s' : process p max t n d s = Ok s' ->
  (ents s' = ents s ++ [(t, d)] /\
   s_index s' = u32 ((if t =? 0x2F then u32 (s_index s + max) else s_index s) + n)) \/
  (In t content_types /\ ents s' = ents s /\ s_index s' = u32 (s_index s + n)).
Proof.
  unfold process. intros H. apply bind_ok in H. destruct H as (s1 & H1 & H).
  apply continued_same in H1. destruct H1 as (E1 & _ & _ & _ & _ & _ & _ & I1 & _).
  apply bind_ok in H. destruct H as (r & Hr & H). apply bind_ok in H. destruct H as (s2 & H2 & [= <-]).
  destruct r as [r|].
  - left. apply parse_some in Hr. destruct Hr as [<- <-]. apply add_ents in H2. destruct H2 as [E2 I2].
    unfold ents in *. cbn [at_index s_list s_index]. rewrite E2, E1, I2, I1. split; reflexivity.
  - right. injection H2 as <-. split; [eapply parse_none; exact Hr|]. cbn [at_index s_list s_index].
    unfold ents in *. cbn [at_index s_list]. rewrite I1. auto.
Qed.

Lemma seen_step k b : 4 < lenN b ->
  seen_from (S k) b =
    let n := le (takeN 2 (dropN 2 b)) in
    if n <? lenN (dropN 4 b) then (le (takeN 2 b), takeN n (dropN 4 b)) :: seen_from k (dropN n (dropN 4 b))
    else [(le (takeN 2 b), [])].
Proof. intros H. cbn [seen_from]. replace (lenN b <=? 4) with false by lia. reflexivity. Qed.
Lemma seen_short k b : lenN b <= 4 -> seen_from k b = [].
Proof. intros H. destruct k; cbn [seen_from]; [reflexivity|]. replace (lenN b <=? 4) with true by lia. reflexivity. Qed.

Lemma loop_over p S k s : lenN S <= u32 (s_index s + 4) -> loop p S k s <> Endless -> loop p S k s = Done s.
Proof.
  intros H. destruct k; cbn [loop]; [congruence|]. intros _.
  replace (u32 (s_index s + 4) <? lenN S) with false by lia. reflexivity.
Qed.

Lemma loop_reported p S : lenN S < 2 ^ 30 -> forall k s,
  s_index s <= lenN S ->
  match loop p S k s with
  | Done s' => exists got, ents s' = ents s ++ got /\ reported (seen_from k (dropN (s_index s) S)) got
  | Threw _ s' => exists a c got, ents s' = ents s ++ got /\
      seen_from k (dropN (s_index s) S) = a ++ c /\ c <> [] /\ reported a got
  | _ => True
  end.
Proof.
  intros HS. induction k as [|k IH]; intros s Hs; [exact I|]. cbn [loop].
  rewrite (u32_small (s_index s + 4)) by lia.
  destruct (N.ltb_spec (s_index s + 4) (lenN S)) as [Hi|Hi].
  2:{ exists []. rewrite app_nil_r. split; [reflexivity|]. rewrite seen_short by (rewrite lenN_dropN; lia). constructor. }
  pose proof (turn_eq p S s (s_index s) eq_refl Hi HS) as E. cbv zeta in E.
  rewrite seen_step by (rewrite lenN_dropN; lia). cbv zeta.
  set (b := dropN (s_index s) S) in *. set (t := le (takeN 2 b)) in *. set (n := le (takeN 2 (dropN 2 b))) in *.
  assert (Hn : n < 2 ^ 16) by apply le2_lt.
  assert (L4 : lenN (dropN 4 b) = lenN S - (s_index s + 4)) by (subst b; rewrite dropN_dropN, lenN_dropN; lia).
  destruct (turn p S s) as [s'|e| |] eqn:ET; try exact I.
  2:{ exists [], (if n <? lenN (dropN 4 b) then (t, takeN n (dropN 4 b)) :: seen_from k (dropN n (dropN 4 b)) else [(t, [])]), [].
      rewrite app_nil_r. split; [reflexivity|]. split; [reflexivity|]. split; [destruct (n <? _); discriminate|constructor]. }
  symmetry in E. apply process_ents in E. cbn [at_index s_index] in E. change (ents (at_index (s_index s + 4) s)) with (ents s) in E.
  set (d := if n <? lenN (dropN 4 b) then takeN n (dropN 4 b) else []) in *.
  destruct E as [[EE EI]|(It & EE & EI)].
  - destruct (N.eqb_spec t 0x2F) as [Et|Et].
    + (* the stream ends here *)
      rewrite (u32_small (s_index s + 4 + lenN S)) in EI by lia. rewrite u32_small in EI by lia.
      assert (HO : loop p S k s' <> Endless -> loop p S k s' = Done s').
      { apply loop_over. rewrite EI. rewrite u32_small by lia. lia. }
      destruct (loop p S k s') eqn:EL; try exact I; specialize (HO ltac:(discriminate)); try discriminate HO.
      injection HO as ->. exists [(t, d)]. split; [exact EE|]. rewrite Et. subst d.
      destruct (n <? _); apply rp_encrypted.
    + rewrite u32_small in EI by lia. unfold d in EE. destruct (N.ltb_spec n (lenN (dropN 4 b))) as [Hc|Hc].
      * specialize (IH s' ltac:(lia)). rewrite EI in IH. subst b. rewrite !dropN_dropN. rewrite dropN_dropN in EE.
        destruct (loop p S k s') as [s''|e' s''| |]; try exact I.
        -- destruct IH as (got & EG & RG). exists ((t, takeN n (dropN (s_index s + 4) S)) :: got).
           rewrite EG, EE, <- app_assoc. split; [reflexivity|]. apply rp_next; assumption.
        -- destruct IH as (a & c & got & EG & EA & NC & RG).
           exists ((t, takeN n (dropN (s_index s + 4) S)) :: a), c, ((t, takeN n (dropN (s_index s + 4) S)) :: got).
           rewrite EG, EE, <- app_assoc. split; [reflexivity|]. rewrite EA. split; [reflexivity|]. split; [exact NC|].
           apply rp_next; assumption.
      * assert (HO : loop p S k s' <> Endless -> loop p S k s' = Done s').
        { apply loop_over. rewrite EI. rewrite u32_small by lia. lia. }
        destruct (loop p S k s') eqn:EL; try exact I; specialize (HO ltac:(discriminate)); try discriminate HO.
        injection HO as ->. exists [(t, [])]. split; [exact EE|]. apply rp_next; [exact Et|apply rp_end].
  - rewrite u32_small in EI by lia. destruct (N.ltb_spec n (lenN (dropN 4 b))) as [Hc|Hc].
    + specialize (IH s' ltac:(lia)). rewrite EI in IH. subst b. rewrite !dropN_dropN.
      destruct (loop p S k s') as [s''|e' s''| |]; try exact I.
      * destruct IH as (got & EG & RG). exists got. rewrite EG, EE. split; [reflexivity|]. apply rp_missing; assumption.
      * destruct IH as (a & c & got & EG & EA & NC & RG).
        exists ((t, takeN n (dropN (s_index s + 4) S)) :: a), c, got.
        rewrite EG, EE. split; [reflexivity|]. rewrite EA. split; [reflexivity|]. split; [exact NC|].
        apply rp_missing; assumption.
    + assert (HO : loop p S k s' <> Endless -> loop p S k s' = Done s').
      { apply loop_over. rewrite EI. rewrite u32_small by lia. lia. }
      destruct (loop p S k s') eqn:EL; try exact I; specialize (HO ltac:(discriminate)); try discriminate HO.
      injection HO as ->. exists []. rewrite app_nil_r. split; [exact EE|]. apply rp_missing; [exact It|constructor].
Qed.

Lemma seen_fuel k : forall b, (List.length b <= k)%nat -> seen_from k b = seen b.
Proof.
  unfold seen. intros b. revert k. remember (List.length b) as m eqn:Em. revert b Em.
  induction m as [m IH] using lt_wf_ind. intros b Em k Hk.
  destruct (N.le_gt_cases (lenN b) 4) as [H|H]; [rewrite !seen_short by exact H; reflexivity|].
  destruct k as [|k]; [unfold lenN in H; lia|]. destruct m as [|m]; [unfold lenN in H; lia|].
  rewrite !seen_step by exact H. cbv zeta. destruct (_ <? _) eqn:E; [|reflexivity]. f_equal.
  set (c := dropN _ _). assert (List.length c < List.length b)%nat.
  { subst c. rewrite !dropN_skipn, !skipn_length. unfold lenN in H. lia. }
  rewrite (IH (List.length c) ltac:(lia) c eq_refl k ltac:(lia)).
  rewrite (IH (List.length c) ltac:(lia) c eq_refl m ltac:(lia)). reflexivity.
Qed.

Lemma all_reported p what S x : lenN S < 2 ^ 30 -> has_text what -> Detailer p what S = Ok x ->
  exists a c, seen S = a ++ c /\ reported a (entries x) /\ (x_error x = [] <-> c = []).
Proof.
  intros HS HW H. unfold Detailer, ParseStream in H.
  pose proof (loop_reported p S HS (Datatypes.S (List.length S)) state0 ltac:(cbn; lia)) as L.
  cbn [s_index state0] in L. rewrite dropN_0, (seen_fuel (Datatypes.S (List.length S)) S ltac:(lia)) in L.
  destruct (loop _ _ _ _) as [s|e s| |]; try discriminate.
  - destruct L as (got & EG & RG). destruct (s_vers s); [|discriminate]. injection H as <-.
    exists (seen S), []. rewrite app_nil_r. split; [reflexivity|]. cbn [x_error]. split; [|tauto].
    unfold entries. cbn [x_list]. unfold ents in EG. rewrite EG. exact RG.
  - destruct L as (a & c & got & EG & EA & NC & RG). destruct (s_vers s); [|discriminate]. injection H as <-.
    exists a, c. split; [exact EA|]. cbn [x_error]. split; [|specialize (HW e); tauto].
    unfold entries. cbn [x_list]. unfold ents in EG. rewrite EG. exact RG.
Qed.

(** ** The records of a well-formed stream *)
Lemma lenN_record r : lenN (record_bytes r) = 4 + lenN (snd r).
Proof. unfold record_bytes. rewrite !lenN_app, !lenN_to_le. lia. Qed.
Lemma record_parts r t : record_ok r ->
  let b := record_bytes r ++ t in
  le (takeN 2 b) = fst r /\ le (takeN 2 (dropN 2 b)) = lenN (snd r) /\ dropN 4 b = snd r ++ t.
Proof.
  intros [H1 H2]. unfold record_bytes. cbv zeta. rewrite <- !app_assoc.
  assert (L1 : lenN (to_le 2 (fst r)) = 2) by (rewrite lenN_to_le; reflexivity).
  assert (L2 : lenN (to_le 2 (lenN (snd r))) = 2) by (rewrite lenN_to_le; reflexivity).
  assert (D1 : forall m, dropN 2 (to_le 2 (fst r) ++ m) = m) by (intros; rewrite <- L1 at 1; apply dropN_app_exact).
  split; [|split].
  - rewrite <- L1 at 1. rewrite takeN_app_exact. apply le_to_le_id. exact H1.
  - rewrite D1. rewrite <- L2 at 1. rewrite takeN_app_exact. apply le_to_le_id. exact H2.
  - change 4 with (2 + 2). rewrite <- dropN_dropN, D1. rewrite <- L2 at 1. apply dropN_app_exact.
Qed.
Lemma seen_stream l r : Forall record_ok l -> record_ok r ->
  seen (stream_of (l ++ [r])) = without_last_data l r.
Proof.
  intros Hl Hr. unfold without_last_data.
  assert (G : forall k, (List.length (stream_of (l ++ [r])) <= k)%nat ->
    seen_from k (stream_of (l ++ [r])) = l ++ match snd r with [] => [] | _ => [(fst r, [])] end).
  2:{ apply G. lia. }
  induction Hl as [|a l Ha Hl IH]; intros k Hk.
  - assert (ES : stream_of ([] ++ [r]) = record_bytes r ++ []) by reflexivity.
    rewrite ES in *. clear ES.
    pose proof (lenN_record r) as L. destruct (record_parts r [] Hr) as (P1 & P2 & P3). cbv zeta in P1, P2, P3.
    rewrite app_nil_r in *. cbn [app]. destruct (snd r) as [|c d] eqn:E.
    + apply seen_short. rewrite L. cbn. lia.
    + rewrite lenN_cons in L. destruct k as [|k]; [unfold lenN at 1 in L; lia|].
      rewrite seen_step by lia. cbv zeta. rewrite P1, P2, P3.
      rewrite (app_nil_r (c :: d)), N.ltb_irrefl. reflexivity.
  - change (stream_of ((a :: l) ++ [r])) with (record_bytes a ++ stream_of (l ++ [r])) in *.
    assert (LP : 4 <= lenN (stream_of (l ++ [r]))).
    { unfold stream_of. rewrite map_app, concat_app, lenN_app. cbn [map List.concat]. rewrite app_nil_r, lenN_record. lia. }
    pose proof (lenN_record a) as L. destruct (record_parts a (stream_of (l ++ [r])) Ha) as (P1 & P2 & P3). cbv zeta in *.
    destruct k as [|k]; [rewrite app_length in Hk; unfold lenN in L; lia|].
    rewrite seen_step by (rewrite lenN_app; lia). cbv zeta. rewrite P1, P2, P3, lenN_app.
    replace (_ <? _) with true by lia. rewrite takeN_app_exact, dropN_app_exact.
    rewrite IH by (rewrite app_length in Hk; unfold lenN in L; lia).
    destruct a; reflexivity.
Qed.
