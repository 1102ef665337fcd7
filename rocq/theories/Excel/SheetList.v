(** The sheets of a workbook. *)
From Coq Require Import List NArith ZArith Bool Lia Strings.String.
From Coq Require Import ZifyBool ZifyNat ZifyN.
From Verif Require Import Lib.Res Lib.Bytes Lib.BytesFacts Lib.Text Common.Model Common.Spec Common.ReadProofs
     Excel.Model Excel.Records Excel.Engine Excel.Spec Excel.Statements Excel.EngineProofs Excel.SheetProofs.
Import ListNotations.
Local Open Scope N_scope.
Ltac Zify.zify_post_hook ::= Z.div_mod_to_equations.
Arguments N.pow : simpl never.
Arguments N.mul : simpl never.
Arguments N.add : simpl never.

(** An invariant of the loop *)
Lemma loop_inv p S (P : state -> Prop) : lenN S < 2 ^ 30 ->
  (forall s s' t n d, s_index s + 4 < lenN S -> P s -> n < 2 ^ 16 ->
     process p (lenN S) t n d (at_index (s_index s + 4) s) = Ok s' -> P s') ->
  forall k s, s_index s < 2 ^ 32 - 4 -> P s ->
  match loop p S k s with Done s' | Threw _ s' => P s' | _ => True end.
Proof.
  intros HS HP. induction k as [|k IH]; intros s Hs Ps; [exact I|]. cbn [loop].
  rewrite (u32_small (s_index s + 4)) by lia. destruct (N.ltb_spec (s_index s + 4) (lenN S)) as [Hi|Hi]; [|exact Ps].
  destruct (turn p S s) as [s1|e| |] eqn:ET; try exact I; [|exact Ps].
  pose proof (turn_index p S s s1 Hi HS ET) as HI. destruct (turn_at p S s Hi HS) as (t & n & d & E & Hn & _).
  rewrite E in ET. apply IH; [lia|]. eapply HP; [exact Hi|exact Ps|exact Hn|exact ET].
Qed.

Lemma rd_drop d off i : rd d (off + i) = rd (dropN off d) i.
Proof. unfold rd. rewrite nthN_dropN. reflexivity. Qed.

(** One byte per character *)
Lemma short_narrow p d off b4 name more :
  dropN off d = [n2b (lenN name); b4] ++ name ++ more -> off + 2 < 2 ^ 32 -> lenN name < 256 -> N.odd (b2n b4) = false ->
  ShortString p d off = Ok (name, 2 + lenN name).
Proof.
  intros E HO HN HB. unfold ShortString.
  assert (L : off + 2 + lenN name <= lenN d).
  { apply (f_equal lenN) in E. rewrite lenN_dropN, !lenN_app in E. change (lenN [n2b (lenN name); b4]) with 2 in E. lia. }
  assert (R0 : rd d off = Ok (lenN name)).
  { rewrite <- (N.add_0_r off), rd_drop, E. unfold rd. cbn [app nthN N.eqb]. rewrite b2n_n2b. f_equal. apply N.mod_small. lia. }
  assert (R1 : rd d (off + 1) = Ok (b2n b4)) by (rewrite rd_drop, E; reflexivity).
  rewrite R0. cbn [bind]. rewrite (u32_small (off + 1)) by lia. rewrite R1. cbn [bind].
  assert (BB : bits (b2n b4) 0 1 =? 0 = true).
  { unfold bits. rewrite N.shiftr_0_r. change (2 ^ 1) with 2. rewrite <- N.bit0_mod, N.bit0_odd, HB. reflexivity. }
  rewrite BB, (u32_small (off + 2)) by lia. rewrite slice_ok by lia. cbn [bind].
  assert (dropN (off + 2) d = name ++ more) as ->.
  { rewrite <- dropN_dropN, E. exact (dropN_app_exact [n2b (lenN name); b4] (name ++ more)). }
  rewrite takeN_app_exact. reflexivity.
Qed.

(** ** The sheets of BIFF8 *)
Lemma new_sheet8 p l t d b s x : s_vers s = Some 1536 -> t = 0x85 ->
  record_body p l 1536 t d = Ok b -> new_sheet (mkRec t d false b) s = Ok x -> sheet_for (t, d) (fst x).
Proof.
  intros HV -> HB HN o v k n (b4 & b5 & fl & more & ED & HO & HL & HF & -> & ->). cbn [snd] in ED.
  change (record_body p l 1536 133 d) with (BoundSheet8Record p d) in HB. unfold BoundSheet8Record in HB.
  assert (D6 : dropN 6 d = [n2b (lenN n); fl] ++ n ++ more).
  { change 6 with (4 + 2). rewrite <- dropN_dropN. rewrite ED. change 4 with (lenN (to_le 4 o)) at 1.
    rewrite dropN_app_exact. exact (dropN_app_exact [b4; b5] ([n2b (lenN n); fl] ++ n ++ more)). }
  rewrite (short_narrow p d 6 fl n more D6) in HB by (lia || assumption). injection HB as <-.
  unfold new_sheet, version_of in HN. rewrite HV in HN. change (1536 =? 1536) with true in HN. cbv iota in HN. cbn [r_body r_data] in HN.
  apply bind_ok in HN. destruct HN as (o' & HO' & HN). apply bind_ok in HN. destruct HN as (v4 & H4 & HN).
  apply bind_ok in HN. destruct HN as (t5 & H5 & [= <-]). cbn [fst].
  unfold load in HO'. apply bind_ok in HO'. destruct HO' as (y & HY & [= <-]). apply slice_inv in HY. destruct HY as (_ & -> & _).
  rewrite dropN_0 in *.
  assert (T4 : takeN 4 d = to_le 4 o).
  { rewrite ED. change 4 with (lenN (to_le 4 o)) at 1. apply takeN_app_exact. }
  rewrite T4, le_to_le_id by exact HO.
  assert (D4 : dropN 4 d = [b4; b5; n2b (lenN n); fl] ++ n ++ more).
  { rewrite ED. change 4 with (lenN (to_le 4 o)) at 1. apply dropN_app_exact. }
  change 4 with (4 + 0) in H4. rewrite rd_drop, D4 in H4. injection H4 as <-.
  change 5 with (4 + 1) in H5. rewrite rd_drop, D4 in H5. injection H5 as <-.
  unfold bits. rewrite N.shiftr_0_r. reflexivity.
Qed.

Definition sheets_ok (s : state) : Prop :=
  (s_index s = 0 -> s_list s = [] /\ s_sheets s = [] /\ s_vers s = None) /\
  (s_vers s = Some 1536 -> Forall2 sheet_for (sheet_records (ents s)) (s_sheets s)).

Lemma add_sheets p max r s s' : add p max r s = Ok s' -> r_type r <> 0x85 -> s_sheets s' = s_sheets s.
Proof.
  unfold add. intros H NT. apply bind_ok in H. destruct H as (s1 & H & [= <-]). cbn [s_sheets].
  destruct (bof_type (r_type r)).
  - unfold substream in H. destruct (s_index s =? 4).
    + apply bind_ok in H. destruct H as (v & _ & [= <-]). reflexivity.
    + destruct (version_of s =? 1536).
      * destruct (look _ _); injection H as <-; reflexivity.
      * destruct (version_of s =? 1280); injection H as <-; reflexivity.
  - replace (r_type r =? 133) with false in H by lia. destruct (r_type r =? 47); injection H as <-; reflexivity.
Qed.

Lemma sheets_step p (S : bytes) s s' t n d : lenN S < 2 ^ 30 -> s_index s + 4 < lenN S -> sheets_ok s -> n < 2 ^ 16 ->
  process p (lenN S) t n d (at_index (s_index s + 4) s) = Ok s' -> sheets_ok s'.
Proof.
  intros HS Hi (Q0 & Q1) Hn H.
  assert (IX : 0 < s_index s').
  { apply process_ents in H. cbn [at_index s_index] in H. destruct H as [[_ ->]|(_ & _ & ->)].
    - destruct (t =? 47); [rewrite (u32_small (s_index s + 4 + lenN S)) by lia|]; rewrite u32_small by lia; lia.
    - rewrite u32_small by lia. lia. }
  split; [lia|]. intros HV. apply process_parts in H. destruct H as (s1 & r & H1 & Hr & s2 & H2 & ->).
  apply continued_same in H1. destruct H1 as (E1 & _ & SH1 & _ & _ & _ & _ & I1 & V1). cbn [at_index s_sheets s_index s_vers] in *.
  change (ents (at_index (s_index s + 4) s)) with (ents s) in E1.
  change (ents (at_index (u32 (s_index s2 + n)) s2)) with (ents s2).
  destruct r as [r|]; [|injection H2 as <-; rewrite E1, SH1; apply Q1; rewrite <- V1; exact HV].
  pose proof (parse_some _ _ _ _ _ _ Hr) as [RT RD].
  pose proof (add_ents _ _ _ _ _ H2) as [E2 _]. rewrite E2, E1, RT, RD. unfold sheet_records. rewrite filter_app. cbn [filter fst].
  pose proof (add_vers _ _ _ _ _ H2) as [EV _].
  destruct (N.eq_dec (s_index s) 0) as [I0|I0].
  - destruct (Q0 I0) as (L0 & S0 & V0).
    assert (t <> 0x85).
    { intros ->. rewrite EV, RT in HV. cbn in HV. rewrite V1, V0 in HV. discriminate. }
    replace (t =? 133) with false by lia. rewrite app_nil_r. unfold ents. rewrite L0. cbn.
    rewrite (add_sheets _ _ _ _ _ H2) by congruence. rewrite SH1, S0. constructor.
  - assert (VV : s_vers s = Some 1536).
    { rewrite EV, I1 in HV. replace (s_index s + 4 =? 4) with false in HV by lia. rewrite andb_false_r in HV. congruence. }
    specialize (Q1 VV). rewrite VV in V1. destruct (N.eqb_spec t 133) as [->|NT].
    + unfold ParseRecord, version_of in Hr. rewrite V1 in Hr.
      destruct (record_body p (map fst (s_list s1)) 1536 133 d) as [b|[]| |] eqn:EB; try discriminate Hr. injection Hr as <-.
      unfold add in H2. cbn [r_type] in H2. change (bof_type 133) with false in H2. change (133 =? 133) with true in H2. cbv iota in H2.
      apply bind_ok in H2. destruct H2 as (s3 & H3 & [= <-]). cbn [s_sheets]. unfold bound_sheet in H3. apply bind_ok in H3.
      destruct H3 as (x & HX & H3). destruct (_ && _); [discriminate|]. injection H3 as <-. cbn [s_sheets]. rewrite SH1.
      apply Forall2_app; [exact Q1|]. constructor; [|constructor]. eapply new_sheet8; [exact V1|reflexivity|exact EB|exact HX].
    + rewrite app_nil_r. rewrite (add_sheets _ _ _ _ _ H2) by congruence. rewrite SH1. exact Q1.
Qed.

Lemma sheets_of_workbook p what (S : bytes) x : lenN S < 2 ^ 30 -> Detailer p what S = Ok x -> Version (x_ext x) = 0x600 ->
  Forall2 sheet_for (sheet_records (entries x)) (x_sheets x).
Proof.
  intros HS H. unfold Detailer, ParseStream in H.
  pose proof (loop_inv p S sheets_ok HS (fun s s' t n d Hi Q Hn E => sheets_step p S s s' t n d HS Hi Q Hn E)
                (Datatypes.S (List.length S)) state0 ltac:(cbn; lia)) as L.
  specialize (L ltac:(split; [cbn; auto|discriminate])).
  destruct (loop _ _ _ _) as [s|e s| |]; try discriminate;
    (destruct (s_vers s) as [v|] eqn:EV; [|discriminate]; injection H as <-; cbn [x_ext Version]; intros ->;
     destruct L as [_ L]; exact (L EV)).
Qed.
