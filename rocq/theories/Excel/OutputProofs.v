(** Which results can be written. *)
From Coq Require Import List NArith ZArith Bool Lia Strings.String.
From Coq Require Import ZifyBool ZifyNat ZifyN.
From Verif Require Import Lib.Res Lib.Bytes Lib.BytesFacts Lib.Text Common.Model Common.Spec Common.ReadProofs
     Excel.Number Excel.Model Excel.Records Excel.Engine Excel.Spec Excel.Statements Excel.EngineProofs
     Excel.SheetProofs Excel.SheetList Excel.OutputSafety.
Import ListNotations.
Local Open Scope N_scope.
Ltac Zify.zify_post_hook ::= Z.div_mod_to_equations.
Arguments N.pow : simpl never.
Arguments N.mul : simpl never.
Arguments N.add : simpl never.

Definition holder (p : platform) (b : body) : option N :=
  match b with
  | Lbl _ | BOF => Some 14
  | ExternName _ => Some (if sizeof_wchar p =? 2 then 4 else 2)
  | BoundSheet8 _ => Some 6
  | CellOver _ => Some 16
  | RK _ _ _ => Some 10
  | _ => None
  end.
Definition not_pass (b : body) : Prop :=
  match b with
  | FilePassXor _ _ | FilePassRC4 _ _ _ _ _ | FilePassCrypto _ _ _ _ _ | FilePassUnset | FilePassOther _ => False
  | _ => True
  end.

Lemma load_ok d off n : off + n <= lenN d -> exists x, load d off n = Ok x.
Proof. intros H. unfold load. rewrite slice_ok by exact H. eexists. reflexivity. Qed.
Lemma load_ub d off n : lenN d < off + n -> load d off n = UB.
Proof. intros H. unfold load. rewrite slice_ub by exact H. reflexivity. Qed.
Lemma rd_ok d off : off < lenN d -> exists x, rd d off = Ok x.
Proof. intros H. destruct (nthN_lt d off H) as (b & E). exists (b2n b). unfold rd. rewrite E. reflexivity. Qed.
Lemma rd_ub d off : lenN d <= off -> rd d off = UB.
Proof. intros H. unfold rd. apply nthN_None in H. rewrite H. reflexivity. Qed.

Ltac step_ok :=
  repeat match goal with
  | |- context[load ?d ?o ?n] => let x := fresh "x" in let E := fresh "E" in
      destruct (load_ok d o n ltac:(lia)) as (x & E); rewrite E; clear E; cbn [bind]
  | |- context[rd ?d ?o] => let x := fresh "x" in let E := fresh "E" in
      destruct (rd_ok d o ltac:(lia)) as (x & E); rewrite E; clear E; cbn [bind]
  end.
(** Reads one after the other: the first that does not fit stops. *)
Ltac step_any :=
  repeat match goal with
  | |- bind (load ?d ?o ?n) _ = UB => let H := fresh in destruct (N.le_gt_cases (o + n) (lenN d)) as [H|H];
      [let x := fresh "x" in let E := fresh "E" in destruct (load_ok d o n H) as (x & E); rewrite E; clear E; cbn [bind]
      |rewrite (load_ub d o n) by exact H; reflexivity]
  | |- bind (rd ?d ?o) _ = UB => let H := fresh in destruct (N.lt_ge_cases o (lenN d)) as [H|H];
      [let x := fresh "x" in let E := fresh "E" in destruct (rd_ok d o H) as (x & E); rewrite E; clear E; cbn [bind]
      |rewrite (rd_ub d o) by exact H; reflexivity]
  end; try lia.

Lemma fields_holder p r k : holder p (r_body r) = Some k ->
  (r_moved r = true \/ r_length r < k -> fields p r = UB) /\
  (r_moved r = false -> k <= r_length r -> exists l, fields p r = Ok l).
Proof.
  intros H. unfold fields, over, r_length. destruct r as [t d m b]. cbn [r_body r_moved r_data] in *.
  destruct b; try discriminate H; injection H as <-; cbn [bind];
    (split; [intros [->|HL]; [reflexivity|]; destruct m; [reflexivity|]|intros -> HL]).
  - unfold lbl_fields. step_any.
  - unfold lbl_fields. step_ok. eexists; reflexivity.
  - unfold extern_fields. destruct (sizeof_wchar p =? 2).
    + destruct (N.lt_ge_cases 0 (lenN d)) as [H0|H0]; [|rewrite rd_ub by exact H0; reflexivity].
      destruct (rd_ok d 0 H0) as (x & ->). cbn [bind]. rewrite load_ub by lia. reflexivity.
    + destruct (N.lt_ge_cases 0 (lenN d)) as [H0|H0]; [|rewrite rd_ub by exact H0; reflexivity].
      destruct (rd_ok d 0 H0) as (x & ->). cbn [bind]. rewrite load_ub by lia. reflexivity.
  - unfold extern_fields. destruct (sizeof_wchar p =? 2); step_ok; eexists; reflexivity.
  - unfold bof_fields. step_any.
  - unfold bof_fields. step_ok. eexists; reflexivity.
  - unfold sheet_fields. step_any.
  - unfold sheet_fields. step_ok. eexists; reflexivity.
  - unfold cell_over. destruct (N.le_gt_cases (14 + 2) (lenN d)) as [H0|H0]; [lia|]. rewrite load_ub by exact H0. reflexivity.
  - unfold cell_over. step_ok. eexists; reflexivity.
  - unfold rk_fields. step_any.
  - unfold rk_fields. step_ok. eexists; reflexivity.
Qed.
Lemma rest_holder p r k : holder p (r_body r) = Some k ->
  (r_moved r = true \/ r_length r < k -> rest p r = UB) /\
  (r_moved r = false -> k <= r_length r -> exists l, rest p r = Ok l).
Proof.
  intros H. destruct (fields_holder p r k H) as [A B].
  assert (E : rest p r = (l <- fields p r ;; Ok (of_fields l))) by (unfold rest; destruct (r_body r); try discriminate H; reflexivity).
  rewrite E. split.
  - intros C. rewrite (A C). reflexivity.
  - intros C D. destruct (B C D) as (l & ->). eexists. reflexivity.
Qed.
Lemma rest_plain p r : holder p (r_body r) = None -> not_pass (r_body r) -> exists l, rest p r = Ok l.
Proof. unfold rest, fields. destruct (r_body r); cbn; intros H N; try discriminate; try contradiction; eexists; reflexivity. Qed.

Ltac unbind H :=
  repeat match type of H with
  | bind _ _ = Ok _ => let x := fresh "x" in let E := fresh "E" in apply bind_ok in H; destruct H as (x & E & H); clear E
  | (if ?c then _ else _) = Ok _ => destruct c
  | match ?c with _ => _ end = Ok _ => destruct c
  end; try discriminate H.
Lemma body_holder p l t d b : record_body p l 1536 t d = Ok b -> t <> 0x2F ->
  not_pass b /\ match holder p b with Some k => In (t, k) (overlaid p) | None => ~ In t (map fst (overlaid p)) end.
Proof.
  intros H NT. change (record_body p l 1536 t d) with (biff8 p l t d) in H. unfold biff8 in H.
  assert (OV : map fst (overlaid p) = [0x18; 0x23; 0x85; 0xFD; 0x201; 0x205; 0x27E; 0x809]) by reflexivity. rewrite OV.
  unfold overlaid. unfold FormulaRecord, LblRecord, ushort_record, ExternNameRecord, CodePageRecord, string_record, BoundSheet8Record,
    CountryRecord, MulBlankRecord, SSTRecord, LabelSstRecord, SupBookRecord, BlankRecord, BoolErrRecord, RowRecord, RKRecord,
    AreaFormatRecord, AlRunsRecord in H. cbv zeta in H.
  repeat match type of H with
  | (if t =? ?k then _ else _) = _ =>
      destruct (N.eqb_spec t k) as [->|?];
      [try congruence; unbind H; injection H as <-; (split; [exact I|]); cbn [holder In]; first [lia | tauto]|]
  end.
  injection H as <-. split; [exact I|]. cbn [holder In]. lia.
Qed.

Lemma substream_ub p l r : (forall r, In r l -> mild (rest p r)) -> In r l -> rest p r = UB ->
  substream_json p l = UB /\ substream_xml p l = UB.
Proof.
  intros M I E. unfold substream_json, substream_xml. split.
  - rewrite (mapM_ub (record_json p) l r); [reflexivity| |exact I|].
    + intros a Ia. unfold record_json. apply mild_bind; [apply M; exact Ia|]. intros; exact Logic.I.
    + unfold record_json. rewrite E. reflexivity.
  - rewrite (mapM_ub (record_xml p) l r); [reflexivity| |exact I|].
    + intros a Ia. unfold record_xml. apply mild_bind; [apply M; exact Ia|]. intros; exact Logic.I.
    + unfold record_xml. rewrite E. reflexivity.
Qed.
Lemma substream_mild p l : (forall r, In r l -> mild (rest p r)) -> mild (substream_json p l) /\ mild (substream_xml p l).
Proof.
  intros M. unfold substream_json, substream_xml, record_json, record_xml. split; (apply mild_bind; [|intros; exact I]);
    (apply mild_mapM; intros a Ia; apply mild_bind; [apply M; exact Ia|intros; exact I]).
Qed.
Lemma mapM_all {A B} (f : A -> res B) l : (forall a, In a l -> exists b, f a = Ok b) -> exists r, mapM f l = Ok r.
Proof.
  induction l as [|a l IH]; intros H; cbn [mapM]; [eexists; reflexivity|].
  destruct (H a ltac:(left; reflexivity)) as (b & ->). destruct IH as (r & ->); [intros; apply H; right; assumption|].
  cbn [bind]. eexists. reflexivity.
Qed.
Lemma substream_fine p l : (forall r, In r l -> exists x, rest p r = Ok x) ->
  (exists j, substream_json p l = Ok j) /\ (exists y, substream_xml p l = Ok y).
Proof.
  intros M. unfold substream_json, substream_xml. split.
  - destruct (mapM_all (record_json p) l) as (r & ->).
    + intros a Ia. unfold record_json. destruct (M a Ia) as (x & ->). eexists; reflexivity.
    + eexists; reflexivity.
  - destruct (mapM_all (record_xml p) l) as (r & ->).
    + intros a Ia. unfold record_xml. destruct (M a Ia) as (x & ->). eexists; reflexivity.
    + eexists; reflexivity.
Qed.
Lemma in_records x home r : In r (records_of x home) -> In (r, home) (x_list x).
Proof.
  unfold records_of. rewrite in_map_iff. intros ([r' h] & <- & I). apply filter_In in I. destruct I as [I C]. cbn in *.
  destruct h, home; try discriminate; [|exact I]. apply N.eqb_eq in C. subst. exact I.
Qed.
Lemma records_in x home r : In (r, home) (x_list x) -> In r (records_of x home).
Proof.
  intros I. unfold records_of. apply in_map_iff. exists (r, home). split; [reflexivity|]. apply filter_In. split; [exact I|].
  cbn. destruct home; [apply N.eqb_refl|reflexivity].
Qed.
Lemma in_numbered {A} (l : list A) : forall i k, k < lenN l -> exists a, In (i + k, a) (numbered i l).
Proof.
  induction l as [|a l IH]; intros i k H; [cbn in H; lia|]. rewrite lenN_cons in H. cbn [numbered].
  destruct (N.eq_dec k 0) as [->|NK].
  - exists a. left. rewrite N.add_0_r. reflexivity.
  - destruct (IH (i + 1) (k - 1) ltac:(lia)) as (b & I). exists b. right. replace (i + k) with (i + 1 + (k - 1)) by lia. exact I.
Qed.

Lemma excel_ub p x e : (forall e, In e (x_list x) -> mild (rest p (fst e))) -> In e (x_list x) ->
  match snd e with Some i => i < lenN (x_sheets x) | None => True end -> rest p (fst e) = UB ->
  excel_json p x = UB /\ excel_xml p x = UB.
Proof.
  intros M IE HH E. destruct e as [r home]. cbn [fst snd] in *.
  assert (MS : forall h, mild (substream_json p (records_of x h)) /\ mild (substream_xml p (records_of x h))).
  { intros h. apply substream_mild. intros r' I'. apply in_records in I'. exact (M _ I'). }
  assert (UBS : substream_json p (records_of x home) = UB /\ substream_xml p (records_of x home) = UB).
  { apply (substream_ub p _ r); [|apply records_in; exact IE|exact E]. intros r' I'. apply in_records in I'. exact (M _ I'). }
  unfold excel_json, excel_xml, contents_json, contents_xml. destruct home as [i|].
  - destruct (in_numbered (x_sheets x) 0 i HH) as (sh & IS). rewrite N.add_0_l in IS.
    assert (NE : records_of x (Some i) <> []).
    { apply records_in in IE. intros Z. rewrite Z in IE. destruct IE. }
    destruct (MS None) as [MJ MX]. split.
    + destruct (substream_json p (records_of x None)); try contradiction MJ; [|reflexivity]. cbn [bind].
      rewrite (mapM_ub _ _ (i, sh)); [reflexivity| |exact IS|].
      * intros [k s'] _. cbn [fst snd]. unfold sheet_json. apply mild_bind; [|intros; exact I].
        destruct (records_of x (Some k)) eqn:ER; [exact I|]. rewrite <- ER. apply mild_bind; [apply MS|intros; exact I].
      * cbn [fst snd]. unfold sheet_json. destruct UBS as [U _]. destruct (records_of x (Some i)) eqn:ER; [congruence|].
        rewrite U. reflexivity.
    + destruct (substream_xml p (records_of x None)); try contradiction MX; [|reflexivity]. cbn [bind].
      rewrite (mapM_ub _ _ (i, sh)); [reflexivity| |exact IS|].
      * intros [k s'] _. cbn [fst snd]. unfold sheet_xml. apply mild_bind; [|intros; exact I].
        destruct (records_of x (Some k)) eqn:ER; [exact I|]. rewrite <- ER. apply MS.
      * cbn [fst snd]. unfold sheet_xml. destruct UBS as [_ U]. destruct (records_of x (Some i)) eqn:ER; [congruence|].
        rewrite U. reflexivity.
  - destruct UBS as [-> ->]. split; reflexivity.
Qed.
Lemma excel_fine p x : (forall e, In e (x_list x) -> exists y, rest p (fst e) = Ok y) ->
  (exists j, excel_json p x = Ok j) /\ (exists y, excel_xml p x = Ok y).
Proof.
  intros M.
  assert (MS : forall h, (exists j, substream_json p (records_of x h) = Ok j) /\ (exists y, substream_xml p (records_of x h) = Ok y)).
  { intros h. apply substream_fine. intros r' I'. apply in_records in I'. exact (M _ I'). }
  unfold excel_json, excel_xml, contents_json, contents_xml. destruct (MS None) as [(j & ->) (y & ->)]. cbn [bind]. split.
  - destruct (mapM_all (fun e => sheet_json p x (fst e) (snd e)) (numbered 0 (x_sheets x))) as (r & ->); [|eexists; reflexivity].
    intros [k s'] _. cbn [fst snd]. unfold sheet_json. destruct (MS (Some k)) as [(j' & EJ) _].
    destruct (records_of x (Some k)) eqn:ER; [eexists; reflexivity|]. rewrite EJ. eexists. reflexivity.
  - destruct (mapM_all (fun e => sheet_xml p x (fst e) (snd e)) (numbered 0 (x_sheets x))) as (r & ->); [|eexists; reflexivity].
    intros [k s'] _. cbn [fst snd]. unfold sheet_xml. destruct (MS (Some k)) as [_ (y' & EY)].
    destruct (records_of x (Some k)) eqn:ER; [eexists; reflexivity|]. rewrite EY. eexists. reflexivity.
Qed.

(** ** The condition *)
Lemma overlaid_fun p t k k' : In (t, k) (overlaid p) -> In (t, k') (overlaid p) -> k = k'.
Proof.
  unfold overlaid. cbn [In]. generalize (if sizeof_wchar p =? 2 then 4 else 2). intros n H H'.
  assert (G : forall a b c d : N, (a, b) = (c, d) -> a = c /\ b = d) by (intros a b c d [= -> ->]; auto).
  repeat match goal with X : _ \/ _ |- _ => destruct X as [X|X] end; try contradiction;
    apply G in H; apply G in H'; lia.
Qed.

Lemma map_split {A B} (f : A -> B) l : forall a b c, map f l = a ++ b :: c -> exists a' b' c', l = a' ++ b' :: c' /\ map f a' = a /\ f b' = b /\ map f c' = c.
Proof.
  induction l as [|x l IH]; intros a b c E; [destruct a; discriminate|]. destruct a as [|y a]; cbn in E; injection E as E1 E2.
  - exists [], x, l. auto.
  - destruct (IH a b c E2) as (a' & b' & c' & -> & <- & <- & <-). exists (x :: a'), b', c'. subst. auto.
Qed.

(** What is known of each reported record *)
Lemma entry_cases p what (S : bytes) x a e b : lenN S < 2 ^ 30 -> Detailer p what S = Ok x -> Version (x_ext x) = 0x600 ->
  x_list x = a ++ e :: b -> r_type (fst e) <> 0x2F ->
  not_pass (r_body (fst e)) /\
  match snd e with Some i => i < lenN (x_sheets x) | None => True end /\
  r_moved (fst e) = negb (r_type (fst e) =? Continue) && continued_by (map entry b) /\
  match holder p (r_body (fst e)) with
  | Some k => In (r_type (fst e), k) (overlaid p) \/ (a = [] /\ k = 14)
  | None => ~ In (r_type (fst e)) (map fst (overlaid p)) /\ a <> []
  end.
Proof.
  intros HS H HV EX NT. pose proof (all_kept p what S x HS H) as K. pose proof (all_flagged p what S x HS H HV a e b EX) as F.
  destruct (version_of_workbook p what S x HS H) as (t0 & d0 & more & v & SE & BT & _ & _ & _).
  rewrite HV, EX, map_app in K. cbn [map] in K. destruct a as [|f a]; cbn [map app made_all] in K.
  - destruct K as [K _]. unfold tuple in K. cbn [made_first] in K. destruct K as [KB KH].
    assert (BE : bof_type (r_type (fst e)) = true).
    { destruct (all_placed p what S x HS H) as (u & w & ES & PL & _). rewrite EX in PL. cbn [app map] in PL.
      assert (G : begins_stream (fst (entry e))).
      { inversion PL as [|c t d a0 b0 NF PP E1 E2 E3|c t d a0 b0 IC PP E1 E2 E3|c d a0 E1 E2]; subst.
        - rewrite ES in SE. cbn in SE. injection SE as <- _ _. exact BT.
        - exfalso. rewrite ES in SE. cbn in SE. injection SE as <- _ _. unfold begins_stream, content_types in *. cbn [In] in *. lia.
        - exfalso. rewrite ES in SE. cbn in SE. injection SE as <- _ _. unfold begins_stream, FilePass in *. cbn [In] in *. lia. }
      apply bof_in in G. exact G. }
    rewrite BE in KB. rewrite KB, KH. split; [exact I|]. split; [exact I|]. split; [exact F|]. cbn [holder]. right. auto.
  - destruct K as [_ K]. rewrite Forall_app in K. destruct K as [_ K]. inversion K as [|? ? KE _]; subst. unfold tuple in KE. cbn [made] in KE.
    destruct KE as [(l & KB) KH]. destruct (body_holder p l _ _ _ KB NT) as [NP HB]. split; [exact NP|]. split; [exact KH|]. split; [exact F|].
    destruct (holder p (r_body (fst e))); [left; exact HB|]. split; [exact HB|discriminate].
Qed.

Lemma output_dangling p what (S : bytes) x : lenN S < 2 ^ 30 -> Detailer p what S = Ok x -> Version (x_ext x) = 0x600 ->
  ~ In FilePass (map fst (entries x)) ->
  (dangling p (entries x) -> excel_json p x = UB /\ excel_xml p x = UB) /\
  (~ dangling p (entries x) -> (exists j, excel_json p x = Ok j) /\ (exists y, excel_xml p x = Ok y)).
Proof.
  intros HS H HV NF.
  assert (NT : forall e, In e (x_list x) -> r_type (fst e) <> 0x2F).
  { intros e I E. apply NF. unfold entries. rewrite map_map. apply in_map_iff. exists e. split; [exact E|exact I]. }
  assert (C : forall a e b, x_list x = a ++ e :: b ->
    match snd e with Some i => i < lenN (x_sheets x) | None => True end /\
    ((rest p (fst e) = UB /\ dangling p (entries x)) \/
     (exists y, rest p (fst e) = Ok y) /\
      ~ (exists k, (In (r_type (fst e), k) (overlaid p) \/ (a = [] /\ k = 14)) /\ (lenN (r_data (fst e)) < k \/ continued_by (map entry b) = true)))).
  { intros a e b EX. pose proof (NT e ltac:(rewrite EX; apply in_elt)) as N2.
    destruct (entry_cases p what S x a e b HS H HV EX N2) as (NP & HH & FM & HO). split; [exact HH|].
    destruct (holder p (r_body (fst e))) as [k|] eqn:EH.
    - destruct (rest_holder p (fst e) k EH) as [RU RO].
      assert (NC : r_type (fst e) =? Continue = false).
      { destruct HO as [HO|[-> ->]].
        - apply N.eqb_neq. intros Z. rewrite Z in HO. unfold overlaid, Continue in HO. cbn [In] in HO. repeat destruct HO as [HO|HO]; try discriminate HO. exact HO.
        - pose proof (all_kept p what S x HS H) as K. rewrite EX in K. cbn [app map made_all] in K. destruct K as [K _]. unfold tuple in K. cbn [made_first] in K.
          destruct K as [K _]. destruct (bof_type (r_type (fst e))) eqn:EB; [unfold bof_type, Continue in *; lia|rewrite K in EH; discriminate]. }
      rewrite NC in FM. cbn [negb andb] in FM.
      destruct (r_moved (fst e)) eqn:EM; [left|destruct (N.lt_ge_cases (r_length (fst e)) k) as [HL|HL]; [left|right]].
      + split; [apply RU; left; reflexivity|]. exists (map entry a), (r_type (fst e)), (r_data (fst e)), (map entry b), k.
        split; [unfold entries; rewrite EX, map_app; reflexivity|]. split; [destruct HO as [HO|[-> ->]]; auto|]. right. congruence.
      + split; [apply RU; right; exact HL|]. exists (map entry a), (r_type (fst e)), (r_data (fst e)), (map entry b), k.
        split; [unfold entries; rewrite EX, map_app; reflexivity|]. split; [destruct HO as [HO|[-> ->]]; auto|]. left. exact HL.
      + split; [apply RO; [reflexivity|exact HL]|]. intros (k' & KO & [KL|KL]); [|congruence].
        unfold r_length in HL. assert (k' = k); [|lia]. destruct HO as [HO|[HA HK]], KO as [KO|[KA KK]].
        * eapply overlaid_fun; [exact KO|exact HO].
        * subst. pose proof (all_kept p what S x HS H) as K. rewrite EX in K. cbn [app map made_all] in K. destruct K as [K _]. unfold tuple in K. cbn [made_first] in K.
          destruct K as [K _]. destruct (bof_type (r_type (fst e))) eqn:EB; rewrite K in EH; [injection EH as <-; reflexivity|discriminate].
        * subst. pose proof (all_kept p what S x HS H) as K. rewrite EX in K. cbn [app map made_all] in K. destruct K as [K _]. unfold tuple in K. cbn [made_first] in K.
          destruct K as [K _]. destruct (bof_type (r_type (fst e))) eqn:EB; [|rewrite K in EH; discriminate].
          assert (r_type (fst e) = 0x009 \/ r_type (fst e) = 0x209 \/ r_type (fst e) = 0x409 \/ r_type (fst e) = 0x809) as BT by (unfold bof_type in EB; lia).
          destruct BT as [BT|[BT|[BT|BT]]]; rewrite BT in KO; unfold overlaid in KO; cbn [In] in KO;
            repeat destruct KO as [KO|KO]; try discriminate KO; try contradiction. injection KO as <-. reflexivity.
        * congruence.
    - right. destruct HO as [HO NA]. split; [apply rest_plain; assumption|]. intros (k' & [KO|[KO _]] & _); [|contradiction].
      apply HO. apply (in_map fst) in KO. exact KO. }
  assert (M : forall e, In e (x_list x) -> mild (rest p (fst e))).
  { intros e I. apply in_split in I. destruct I as (a & b & EX). destruct (C a e b EX) as [_ [[-> _]|[(y & ->) _]]]; exact Logic.I. }
  split.
  - intros (a & t & d & b & k & EE & HO & HD). unfold entries in EE. apply map_split in EE.
    destruct EE as (a' & e & b' & EX & <- & EN & <-). unfold entry in EN. injection EN as <- <-.
    destruct (C a' e b' EX) as [HH [[RU _]|[_ NN]]].
    + apply (excel_ub p x e M); [rewrite EX; apply in_elt|exact HH|exact RU].
    + exfalso. apply NN. exists k. split; [|exact HD]. destruct HO as [HO|[HA HK]]; [left; exact HO|right]. destruct a'; [auto|discriminate].
  - intros ND. apply excel_fine. intros e I. apply in_split in I. destruct I as (a & b & EX).
    destruct (C a e b EX) as [_ [[_ D]|[Y _]]]; [contradiction|exact Y].
Qed.
