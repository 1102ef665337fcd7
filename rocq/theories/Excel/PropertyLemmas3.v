(** The statements of [Excel/Properties3.v]. *)
From Coq Require Import List NArith ZArith Bool Lia Strings.String Strings.Byte.
From Coq Require Import ZifyBool ZifyNat ZifyN.
From Verif Require Import Lib.Res Lib.Bytes Lib.BytesFacts Lib.Text Common.Model Common.Spec Common.ReadProofs
     Excel.Number Excel.Model Excel.Records Excel.Engine Excel.Spec Excel.Statements Excel.NumberSpec Excel.NumberProofs
     Excel.EngineProofs Excel.CellProofs Excel.FunctionSpec Excel.FormulaSpec Excel.FormulaStatements Excel.FormulaSpec2 Excel.FormulaStatements2
     Excel.TokenProofs Excel.FormulaProofs Excel.LoopProofs Excel.MisreadProofs Excel.Samples.
From Verif Require Propset.Spec.
Import ListNotations.
Local Open Scope N_scope.
Ltac Zify.zify_post_hook ::= Z.div_mod_to_equations.
Arguments N.pow : simpl never.
Arguments N.mul : simpl never.
Arguments N.add : simpl never.

(** ** The record of a formula *)
Lemma formula_parsed p before d xs : 22 <= lenN d -> lenN d < 2 ^ 31 -> rgce p d (lenN d) (S (List.length d)) 22 = Ok (xs, lenN d) ->
  exists r, built p before 0x600 0x06 d r /\ shows p r "FormulaString" (Esc (formula_text before xs)).
Proof.
  intros L B E. destruct (formula_head p before d L B) as (fs & HF). rewrite E in HF. cbn [bind snd fst] in HF.
  unfold extra in HF. rewrite N.leb_refl in HF. cbn [bind] in HF.
  eexists. split.
  - unfold built, ParseRecord, record_body, biff8. change (1536 =? 1536) with true. change (6 =? 6) with true. cbv iota. rewrite HF. reflexivity.
  - eexists. split; [reflexivity|]. apply in_or_app. right. right. left. reflexivity.
Qed.
Section Data.
Variables (p : platform) (before : list rec) (row col ixfe flags chn cce : N) (value : bytes).
Hypothesis HV : lenN value = 8.
Let data := formula_data row col ixfe value flags chn cce.
Lemma items_shown l : Forall item_ok l -> lenN (items_bytes l) < 2 ^ 31 - 22 ->
  exists ss, item_texts before l ss /\ formula_shown p before (data (items_bytes l)) ss.
Proof.
  intros K B. pose proof (formula_length row col ixfe flags chn cce value (items_bytes l) HV) as L. fold (data (items_bytes l)) in L.
  pose proof (formula_rest row col ixfe flags chn cce value (items_bytes l) HV) as H. fold (data (items_bytes l)) in H.
  pose proof (items_length l K) as IL.
  destruct (items_all p (data (items_bytes l)) (lenN (data (items_bytes l))) (N.le_refl _)) with (l := l) (off := 22) (fuel := S (List.length (data (items_bytes l)))) as (xs & E & P).
  - lia.
  - exact H.
  - exact K.
  - lia.
  - unfold lenN in *. lia.
  - exists (map (ptg_text before) xs). split; [apply P|].
    destruct (formula_parsed p before (data (items_bytes l)) xs ltac:(lia) ltac:(lia) E) as (r & HR & HS).
    exists r, (formula_text before xs). split; [exact HR|]. split; [apply join_separated|exact HS].
Qed.
End Data.
Lemma right_bytes ts : items_bytes (map Right ts) = tokens_bytes ts.
Proof. unfold items_bytes, tokens_bytes. rewrite map_map. reflexivity. Qed.

(** ** C99 *)
Lemma C99_formula : forall p before row col ixfe value flags chn cce ts, lenN value = 8 -> Forall token_ok ts ->
  lenN (tokens_bytes ts) < 2 ^ 31 - 22 ->
  exists ss, texts before ts ss /\ formula_shown p before (formula_data row col ixfe value flags chn cce (tokens_bytes ts)) ss.
Proof.
  intros p before row col ixfe value flags chn cce ts HV K B. rewrite <- right_bytes in *.
  destruct (items_shown p before row col ixfe flags chn cce value HV (map Right ts)) as (ss & T & F).
  - apply Forall_map. exact K.
  - exact B.
  - exists ss. split; [|exact F]. clear -T. unfold texts, item_texts in *. revert ss T. induction ts as [|t ts IH]; intros ss T; inversion T; subst; constructor; auto.
Qed.
Lemma C99_items : forall p before row col ixfe value flags chn cce l, lenN value = 8 -> Forall item_ok l ->
  lenN (items_bytes l) < 2 ^ 31 - 22 ->
  exists ss, item_texts before l ss /\ formula_shown p before (formula_data row col ixfe value flags chn cce (items_bytes l)) ss.
Proof. intros p before row col ixfe value flags chn cce l HV. apply (items_shown p before row col ixfe flags chn cce value HV). Qed.

(** The last token counts three bytes too many. *)
Lemma area_error_token p d off c data : lenN d < 2 ^ 31 -> c < 3 -> lenN data = 10 -> here d off (class c 0x1D :: data) ->
  token p d (lenN d) off = Ok (Text (B "PtgAreaErr3d"), 14).
Proof.
  intros B C Q H. pose proof (here_len _ _ _ H) as L. rewrite lenN_cons, Q in L. apply here_cons in H. destruct H as [H0 _].
  assert (U : forall o, o + 2 <= lenN d -> exists v, us d (lenN d) o = Ok v) by (intros o; apply us_any; lia).
  apply three in C. destruct C as [-> | [-> | ->]];
   (start H0; choose; unfold area_err3d, ixti, first; rewrite (here_rd _ _ _ H0); cbn [bind];
    repeat match goal with |- context [us d (lenN d) ?o] => let v := fresh "v" in let E := fresh "E" in
      destruct (U o) as [v E]; [lia|]; rewrite !E; cbn [bind]; clear E end; reflexivity).
Qed.
Lemma C99_area_error : forall p before row col ixfe value flags chn cce l c data, lenN value = 8 -> Forall item_ok l -> c < 3 ->
  lenN data = 10 -> lenN (items_bytes l) < 2 ^ 31 - 40 ->
  ParseRecord p before 0x600 0x06 (formula_data row col ixfe value flags chn cce (items_bytes l ++ class c 0x1D :: data)) = UB.
Proof.
  intros p before row col ixfe value flags chn cce l c data HV K C Q B. set (rest := items_bytes l ++ class c 0x1D :: data).
  pose proof (formula_length row col ixfe flags chn cce value rest HV) as L.
  pose proof (formula_rest row col ixfe flags chn cce value rest HV) as H.
  set (d := formula_data row col ixfe value flags chn cce rest) in *. pose proof (items_length l K) as IL.
  assert (LR : lenN rest = lenN (items_bytes l) + 11) by (unfold rest; rewrite lenN_app, lenN_cons, Q; lia).
  unfold rest in H. apply here_app in H. destruct H as [H1 H2].
  destruct (formula_head p before d) as (fs & HF); [lia|lia|].
  assert (E : exists xs, rgce p d (lenN d) (S (List.length d)) 22 = Ok (xs, lenN d + 3)).
  { destruct (items_read p d (lenN d) (N.le_refl _) ltac:(lia) l 22 (S (List.length d) - List.length l) H1 K) as (xs & E & _); [lia|].
    replace (List.length l + (S (List.length d) - List.length l))%nat with (S (List.length d)) in E by (unfold lenN in *; lia).
    rewrite E. destruct (S (List.length d) - List.length l)%nat as [|[|k]] eqn:F; [unfold lenN in *; lia..|].
    cbn [rgce]. destruct (N.ltb_spec (22 + lenN (items_bytes l)) (lenN d)); [|lia].
    rewrite (area_error_token p d _ c data ltac:(lia) C Q H2). cbn [bind fst snd].
    rewrite u32_small by lia. destruct (N.ltb_spec (22 + lenN (items_bytes l) + 14) (lenN d)); [lia|]. cbn [bind fst snd].
    eexists. f_equal. f_equal. lia. }
  destruct E as (xs & E). rewrite E in HF. cbn [bind fst snd] in HF. unfold extra in HF. destruct (N.leb_spec (lenN d + 3) (lenN d)); [lia|].
  cbn [bind] in HF. unfold ParseRecord, record_body, biff8. change (1536 =? 1536) with true. change (6 =? 6) with true. cbv iota. rewrite HF. reflexivity.
Qed.

(** Concrete formulas; the cell C1 *)
Definition example_formula (cce : N) (rest : bytes) : bytes := formula_data 0 2 15 (to_le 8 0) 0 0 cce rest.
Definition cell_a1 : cell := mkCell 0 0 3.
Definition cell_b2 : cell := mkCell 1 1 3.
Lemma C99_range : forall p before, exists r, cell_ok cell_a1 /\ cell_ok cell_b2 /\ a1 0 0 (B "A1") /\ a1 1 1 (B "B2") /\
  built p before 0x600 0x06 (example_formula 9 (class 1 0x05 :: range_bytes cell_a1 cell_b2)) r /\
  shows p r "FormulaString" (Esc (B "PtgArea(A70:QG257)")).
Proof.
  intros p before. eexists. split; [vm_compute; repeat split; discriminate || reflexivity|]. split; [vm_compute; repeat split; discriminate || reflexivity|].
  split; [exists (B "A"); split; [split; [repeat constructor; vm_compute; discriminate|reflexivity]|reflexivity]|].
  split; [exists (B "B"); split; [split; [repeat constructor; vm_compute; discriminate|reflexivity]|reflexivity]|].
  split; [vm_compute; reflexivity|]. eexists. split; [reflexivity|]. cbn [In]. tauto.
Qed.
(** an error in 7 bytes *)
Lemma C99_mem_error : forall p before, exists r,
  built p before 0x600 0x06 (example_formula 7 (class 0 0x07 :: [x2a; x00; x00; x00; x05; x00])) r /\
  shows p r "FormulaString" (Esc (B "PtgMemErr;UnknownPTG(type=0,subType=0)")).
Proof. intros p before. eexists. split; [vm_compute; reflexivity|]. eexists. split; [reflexivity|]. cbn [In]. tauto. Qed.
(** the row of a name *)
Lemma C99_natural : forall p before,
  ParseRecord p before 0x600 0x06 (example_formula 6 (n2b 0x18 :: n2b 0x02 :: to_le 2 0 ++ to_le 2 0xC000)) = Ok None.
Proof. intros p before. vm_compute. reflexivity. Qed.
(** the function BEEP, number 0 of the commands, and COUNT, number 0 of the functions *)
Lemma C99_command : forall p before, exists r, In (0, B "COUNT") functions /\
  built p before 0x600 0x06 (example_formula 4 (class 1 0x02 :: x00 :: to_le 2 (2 ^ 15 + 0))) r /\
  shows p r "FormulaString" (Esc (B "PtgFuncVar(COUNT)")).
Proof.
  intros p before. eexists. split; [left; reflexivity|]. split; [vm_compute; reflexivity|]. eexists. split; [reflexivity|]. cbn [In]. tauto.
Qed.
(** the cell B2 *)
Lemma C99_table : forall p before, exists r, a1 1 1 (B "B2") /\
  built p before 0x600 0x06 (example_formula 5 (n2b 0x02 :: to_le 2 1 ++ to_le 2 1)) r /\
  shows p r "FormulaString" (Esc (B "PtgTbl(A1)")).
Proof.
  intros p before. eexists. split; [exists (B "B"); split; [split; [repeat constructor; vm_compute; discriminate|reflexivity]|reflexivity]|].
  split; [vm_compute; reflexivity|]. eexists. split; [reflexivity|]. cbn [In]. tauto.
Qed.
(** the formula ={1}: eight bytes of tokens; the array follows them *)
Definition array_token : tok := Operand 1 0x00 [x00; x00; x00; x00; x00; x00; x00].
Definition array_data : bytes := [x00; x00; x00; x01] ++ to_le 8 0x3FF0000000000000.
Lemma C99_extra : forall p before, exists r s, token_ok array_token /\ lenN (token_bytes array_token) = 8 /\
  texts before [array_token] [B "PtgArray"] /\
  built p before 0x600 0x06 (example_formula 8 (token_bytes array_token ++ array_data)) r /\
  shows p r "FormulaString" (Esc s) /\ s <> B "PtgArray".
Proof.
  intros p before. eexists. eexists. split; [vm_compute; split; [reflexivity|left; reflexivity]|]. split; [reflexivity|].
  split; [constructor; [left; reflexivity|constructor]|].
  split; [vm_compute; reflexivity|]. split; [eexists; split; [reflexivity|]; cbn [In]; do 15 right; left; reflexivity|]. vm_compute. discriminate.
Qed.

(** ** Names *)
Lemma C99_name : forall p before flags key itab name ts more, flags < 2 ^ 16 -> key < 256 -> itab < 2 ^ 16 -> lenN name < 256 -> Forall token_ok ts ->
  lenN (tokens_bytes ts) < 2 ^ 16 -> lenN more < 2 ^ 30 ->
  exists r, built p before 0x600 0x18 (lbl_data flags key itab name (tokens_bytes ts) more) r /\ r_type r = 0x18 /\ GetName r = Some name.
Proof.
  intros p before flags key itab name ts more HF HK HI HN K B BM. set (w := tokens_bytes ts) in *.
  assert (HD : here (lbl_data flags key itab name w more) 0 (lbl_data flags key itab name w more)).
  { exists [], []. rewrite app_nil_r. split; reflexivity. }
  set (d := lbl_data flags key itab name w more) in *. unfold d in HD at 2. unfold lbl_data in HD.
  assert (LD : lenN d = 15 + lenN name + lenN w + lenN more).
  { unfold d, lbl_data. rewrite !lenN_app, !lenN_cons, !lenN_to_le. change (lenN []) with 0. lia. }
  apply here_app in HD. destruct HD as [_ HD]. rewrite lenN_to_le in HD. change (0 + N.of_nat 2) with 2 in HD.
  apply here_app in HD. destruct HD as [HC HD]. apply here_cons in HC. destruct HC as [_ HC]. change (2 + 1) with 3 in HC. change (2 + lenN [n2b key; n2b (lenN name)]) with 4 in HD.
  apply here_app in HD. destruct HD as [HE HD]. rewrite lenN_to_le in HD. change (4 + N.of_nat 2) with 6 in HD.
  apply here_app in HD. destruct HD as [_ HD]. rewrite lenN_to_le in HD. change (6 + N.of_nat 2) with 8 in HD.
  apply here_app in HD. destruct HD as [_ HD]. rewrite lenN_to_le in HD. change (8 + N.of_nat 2) with 10 in HD.
  apply here_app in HD. destruct HD as [_ HD]. rewrite lenN_to_le in HD. change (10 + N.of_nat 4) with 14 in HD.
  apply here_app in HD. destruct HD as [H0 HD]. change (14 + lenN [x00]) with 15 in HD.
  apply here_app in HD. destruct HD as [HNm HD]. apply here_app in HD. destruct HD as [HW _].
  eexists. split; [|split].
  - unfold built, ParseRecord, record_body, biff8. change (1536 =? 1536) with true. change (24 =? 6) with false. change (24 =? 24) with true. cbv iota.
    unfold LblRecord. cbv zeta. rewrite (here_rd _ _ _ HC). cbn [bind]. rewrite b2n_n2b, N.mod_small by exact HN.
    unfold NoCchString. destruct (N.leb_spec 14 (lenN d)); [|lia]. rewrite (here_rd _ _ _ H0). cbn [bind].
    change (bits (b2n x00) 0 1 =? 0) with true. cbv iota. change (u32 (14 + 1)) with 15. rewrite (u32_small (15 + lenN name)) by lia.
    destruct (N.leb_spec (15 + lenN name) (lenN d)); [|lia]. rewrite (here_slice _ _ _ HNm). cbn [bind fst snd].
    change 2 with (N.of_nat 2) at 1. rewrite (here_load _ _ _ _ HE) by exact B. cbn [bind].
    rewrite (u32_small (14 + (1 + lenN name))) by lia. rewrite u32_small by lia.
    replace (14 + (1 + lenN name)) with (15 + lenN name) by lia.
    pose proof (tokens_length ts) as TL. fold w in TL.
    destruct (rgce_all p d (15 + lenN name + lenN w) ts (15 + lenN name) (S (N.to_nat (15 + lenN name + lenN w)))) as (xs & E & _); try lia; try assumption; [reflexivity|unfold lenN in *; lia|].
    rewrite E. cbn [bind snd]. unfold extra. destruct (N.leb_spec (15 + lenN name + lenN w) (lenN d)); [|lia]. cbn [bind]. reflexivity.
  - reflexivity.
  - reflexivity.
Qed.
Lemma C99_wide_name : forall p before, sizeof_wchar p = 2 -> exists r w,
  built p before 0x600 0x18 (wide_lbl_data 0 0 0 [0x61; 0x62] [n2b 0x1E; x01; x00; n2b 0x1E; x02; x00; n2b 0x03] []) r /\ GetName r = Some w /\ w <> B "ab".
Proof.
  intros [l c] before H. cbn in H. subst c. eexists. eexists. split; [vm_compute; reflexivity|]. split; [reflexivity|discriminate].
Qed.

(** ** Examples *)
Definition example_tokens : list tok :=
  [Reference 1 (mkCell 4 1 3); Integer 25; Operator 0x05; Number 0x3FF8000000000000; Literal (B "ab"); Error 0x2A; Logical true;
   Fixed 1 27; Variadic 1 2 36; Name 1 1; Attribute 0x10 [x00; x00]; OtherRange 0 0 cell_a1 cell_b2].
Definition name_record : rec := mkRec 0x18 [] false (Lbl (B "total")).
Lemma C99_ex : Forall token_ok example_tokens /\ exists r, built linux64 [name_record] 0x600 0x06 (example_formula 70 (tokens_bytes example_tokens)) r /\
  shows linux64 r "FormulaString" (Esc (B
    "PtgRef(B5);PtgInt(25);PtgMul;PtgNum(1.500000);PtgStr(""ab"");PtgErr('#N/A');PtgBool(true);PtgFunc(ROUND);PtgFuncVar(AND);PtgName(total);PtgAttrSum;PtgArea3d(A1:B2)")).
Proof.
  split.
  - repeat apply Forall_cons; try apply Forall_nil; cbn [token_ok example_tokens];
      try (repeat split; try reflexivity; unfold cell_ok; cbn; repeat split; reflexivity);
      try (vm_compute; tauto); try (repeat split; try reflexivity; vm_compute; tauto); try (vm_compute; repeat split; try discriminate; tauto).
    split; [reflexivity|]. eexists. eexists. apply Propset.Spec.ieee_normal; reflexivity.
  - eexists. split; [vm_compute; reflexivity|]. eexists. split; [reflexivity|]. cbn [In]. tauto.
Qed.

(** ** C100 *)
Lemma formula_cell p l d ts : 22 <= lenN d -> lenN d < 2 ^ 31 -> forall b, FormulaRecord p l d = Ok b ->
  rgce p d (lenN d) (S (List.length d)) 22 = Ok ts ->
  exists fs, b = Fields fs /\ In (fld "Cell" (Str (cell_str (le (takeN 2 d)) (le (takeN 2 (dropN 2 d)))))) fs /\
    In (fld "Value" (Esc (formula_value (takeN 8 (dropN 6 d))))) fs.
Proof.
  intros H B b E R. unfold FormulaRecord in E. cbv zeta in E. rewrite !us_le in E by lia. cbn [bind] in E. unfold load in E. rewrite !slice_ok in E by lia. cbn [bind] in E.
  rewrite R in E. cbn [bind] in E. apply bind_ok in E. destruct E as (u & _ & E). injection E as <-. eexists. split; [reflexivity|]. rewrite dropN_0.
  split; cbn [In]; tauto.
Qed.
Lemma value_length v t : value_text v t -> lenN v = 8.
Proof. destruct 1; reflexivity. Qed.
Lemma double_finite x m e : x < 2 ^ 64 -> Propset.Spec.double_precision x m e -> le (skipn 6 (to_le 8 x)) <> 0xFFFF.
Proof.
  intros B D E. assert (Q : x / 2 ^ 48 = 65535).
  { cbn [to_le skipn le] in E. rewrite !b2n_n2b in E. change (2 ^ 48) with 281474976710656. change (2 ^ 64) with 18446744073709551616 in B.
    rewrite !N.div_div in E by discriminate. cbn -[N.div N.modulo N.add N.mul] in E. lia. }
  assert (F : Propset.Spec.field x 52 2047 = 2047).
  { unfold Propset.Spec.field. change (2047 + 1) with 2048. change (2 ^ 52) with (2 ^ 48 * 16). rewrite <- N.div_div by discriminate. rewrite Q. reflexivity. }
  destruct D as [D|D1 D2]; rewrite F in *; [discriminate D|lia].
Qed.
Lemma value_right v t : value_text v t -> formula_value v = t.
Proof.
  intros H. destruct H as [ | v | k w a b c d I|]; try reflexivity.
  - destruct v; reflexivity.
  - cbn [errors In] in I. repeat destruct I as [I|I]; try contradiction; injection I as <- <-; reflexivity.
Qed.
Lemma number_right x m e : x < 2 ^ 64 -> Propset.Spec.double_precision x m e -> fixed_point (2 ^ 63 <=? x) m e (formula_value (to_le 8 x)).
Proof.
  intros B D. unfold formula_value. cbv zeta. destruct (N.eqb_spec (le (skipn 6 (to_le 8 x))) 0xFFFF) as [E|_]; [contradiction (double_finite x m e B D E)|].
  rewrite le_to_le_id by exact B. rewrite (decode_64_finite x m e B D). apply fixed_finite.
Qed.
Lemma formula_reported p before row col ixfe value flags chn cce rest r : row < 2 ^ 16 -> col < 2 ^ 14 -> lenN value = 8 ->
  lenN rest < 2 ^ 31 - 22 -> built p before 0x600 0x06 (formula_data row col ixfe value flags chn cce rest) r ->
  shows p r "Value" (Esc (formula_value value)) /\ exists w, a1 row col w /\ shows p r "Cell" (Str w).
Proof.
  intros HR HC HV HB HK.
  pose proof (formula_length row col ixfe flags chn cce value rest HV) as L. pose proof (formula_value_at row col ixfe flags chn cce value rest HV) as EV.
  assert (E1 : le (takeN 2 (formula_data row col ixfe value flags chn cce rest)) = row).
  { unfold formula_data. change 2 with (lenN (to_le 2 row)) at 1. rewrite takeN_app_exact. apply le_to_le_id. exact HR. }
  assert (E2 : le (takeN 2 (dropN 2 (formula_data row col ixfe value flags chn cce rest))) = col).
  { unfold formula_data. replace (dropN 2 (to_le 2 row ++ to_le 2 col ++ to_le 2 ixfe ++ value ++ to_le 2 flags ++ to_le 4 chn ++ to_le 2 cce ++ rest)) with
      (to_le 2 col ++ to_le 2 ixfe ++ value ++ to_le 2 flags ++ to_le 4 chn ++ to_le 2 cce ++ rest) by (symmetry; apply (dropN_app_exact (to_le 2 row))).
    change 2 with (lenN (to_le 2 col)) at 1. rewrite takeN_app_exact.
    apply le_to_le_id. change (256 ^ N.of_nat 2) with 65536. change (2 ^ 14) with 16384 in HC. lia. }
  set (d := formula_data row col ixfe value flags chn cce rest) in *.
  unfold built, ParseRecord, record_body, biff8 in HK. change (1536 =? 1536) with true in HK. change (6 =? 6) with true in HK. cbv iota in HK.
  destruct (FormulaRecord p before d) as [b|e| |] eqn:E; try discriminate HK; [|destruct e; discriminate HK]. injection HK as <-.
  destruct (formula_head p before d) as (fs & HF); [lia|lia|]. rewrite E in HF. destruct (rgce p d (lenN d) (S (List.length d)) 22) as [ts|e| |] eqn:R; try discriminate HF.
  destruct (formula_cell p before d ts ltac:(lia) ltac:(lia) b E R) as (l & -> & IC & IV). rewrite E1, E2 in IC. rewrite EV in IV.
  split; [exists l; split; [reflexivity|exact IV]|]. exists (cell_str row col). split; [apply cell_right; change (2 ^ 14) with 16384 in HC; change (2 ^ 16) with 65536; lia|].
  exists l. split; [reflexivity|exact IC].
Qed.
Lemma C100_value : forall p before row col ixfe value flags chn cce rest r t, row < 2 ^ 16 -> col < 2 ^ 14 -> value_text value t ->
  lenN rest < 2 ^ 31 - 22 -> built p before 0x600 0x06 (formula_data row col ixfe value flags chn cce rest) r ->
  shows p r "Value" (Esc t) /\ exists w, a1 row col w /\ shows p r "Cell" (Str w).
Proof.
  intros p before row col ixfe value flags chn cce rest r t HR HC HT HB HK. rewrite <- (value_right value t HT).
  apply (formula_reported p before row col ixfe value flags chn cce rest r HR HC (value_length _ _ HT) HB HK).
Qed.
Lemma C100_number : forall p before row col ixfe x m e flags chn cce rest r, row < 2 ^ 16 -> col < 2 ^ 14 -> x < 2 ^ 64 ->
  Propset.Spec.double_precision x m e ->
  lenN rest < 2 ^ 31 - 22 -> built p before 0x600 0x06 (formula_data row col ixfe (to_le 8 x) flags chn cce rest) r ->
  (exists t, fixed_point (2 ^ 63 <=? x) m e t /\ shows p r "Value" (Esc t)) /\ exists w, a1 row col w /\ shows p r "Cell" (Str w).
Proof.
  intros p before row col ixfe x m e flags chn cce rest r HR HC HX HD HB HK.
  destruct (formula_reported p before row col ixfe (to_le 8 x) flags chn cce rest r HR HC (lenN_to_le _ _) HB HK) as [HS HW].
  split; [|exact HW]. exists (formula_value (to_le 8 x)). split; [apply number_right; assumption|exact HS].
Qed.
(** the number 10^-7 *)
Lemma C100_small : forall p before, exists x m e r, x < 2 ^ 64 /\ Propset.Spec.double_precision x m e /\ 0 < m /\
  built p before 0x600 0x06 (formula_data 0 2 15 (to_le 8 x) 0 0 3 [n2b 0x1E; x01; x00]) r /\ shows p r "Value" (Esc (B "0.000000")).
Proof.
  intros p before. exists 0x3E7AD7F29ABCAF48. eexists. eexists. eexists. split; [reflexivity|]. split; [apply Propset.Spec.ieee_normal; reflexivity|].
  split; [reflexivity|]. split; [vm_compute; reflexivity|]. eexists. split; [reflexivity|]. cbn [In]. tauto.
Qed.
Lemma C100_ex : value_text [x02; x00; x2a; x00; x00; x00; xff; xff] (B "#N/A") /\ exists r r' m e,
  built linux64 [] 0x600 0x06 (formula_data 0 2 15 [x02; x00; x2a; x00; x00; x00; xff; xff] 0 0 3 [n2b 0x1E; x01; x00]) r /\
  shows linux64 r "Value" (Esc (B "#N/A")) /\ shows linux64 r "Cell" (Str (B "C1")) /\
  Propset.Spec.double_precision 0xBFF8000000000000 m e /\
  built linux64 [] 0x600 0x06 (formula_data 0 2 15 (to_le 8 0xBFF8000000000000) 0 0 3 [n2b 0x1E; x01; x00]) r' /\
  shows linux64 r' "Value" (Esc (B "-1.500000")).
Proof.
  split; [apply (vt_error 0x2A); cbn [errors In]; tauto|]. do 4 eexists.
  split; [vm_compute; reflexivity|]. split; [eexists; split; [reflexivity|cbn [In]; tauto]|]. split; [eexists; split; [reflexivity|cbn [In]; tauto]|].
  split; [apply Propset.Spec.ieee_normal; reflexivity|]. split; [vm_compute; reflexivity|]. eexists. split; [reflexivity|cbn [In]; tauto].
Qed.

(** ** C101 *)
Lemma C101_ends : forall p what (S : bytes), lenN S < 2 ^ 30 ->
  (forall t d j a b, In (t, d) (seen S) -> t = 0x06 \/ t = 0x18 -> occurs_at [a; b] d j -> moves_on (b2n a) (b2n b)) ->
  Detailer p what S <> Fuel.
Proof. intros p what S HS Q. apply detailer_ends; [exact HS|]. intros t d I T j a b O. apply (Q t d j a b I T O). Qed.
Lemma fuel_rgce p before d : lenN d < 2 ^ 31 -> ParseRecord p before 0x600 0x06 d = Fuel ->
  rgce p d (lenN d) (S (List.length d)) 22 = Fuel.
Proof.
  intros B H. unfold ParseRecord, record_body, biff8 in H. change (1536 =? 1536) with true in H. change (6 =? 6) with true in H. cbv iota in H.
  destruct (FormulaRecord p before d) as [b|e| |] eqn:E; try discriminate H; [destruct e; discriminate H|]. clear H.
  destruct (N.leb_spec 22 (lenN d)) as [L|L].
  - destruct (formula_head p before d L B) as (fs & HF). rewrite E in HF. destruct (rgce p d (lenN d) (S (List.length d)) 22) as [ts|e| |] eqn:R; try discriminate HF; [|reflexivity].
    cbn [bind] in HF. unfold extra in HF. destruct (_ <=? _) in HF; discriminate HF.
  - exfalso. revert E. change (ends (FormulaRecord p before d)). unfold FormulaRecord. cbv zeta. pose proof (ends_load d) as F. ending; try apply F.
    + apply rgce_ends; [exact B| |unfold lenN; lia]. intros j x y J1 J2. lia.
    + unfold extra. ending.
Qed.
Lemma C101_exact : forall p before d, lenN d < 2 ^ 31 -> ParseRecord p before 0x600 0x06 d = Fuel -> never_ends p before d.
Proof.
  intros p before d B H. split; [exact H|]. apply endless; [intros i; apply token_ends|]. replace (N.to_nat (lenN d)) with (List.length d) by (unfold lenN; lia).
  apply (fuel_rgce p before d B H).
Qed.
Lemma C101_unknown : forall p before row col ixfe value flags chn cce ts a b more, lenN value = 8 -> Forall token_ok ts ->
  lenN (tokens_bytes ts ++ a :: b :: more) < 2 ^ 31 - 22 -> unknown (b2n a) (b2n b) ->
  never_ends p before (formula_data row col ixfe value flags chn cce (tokens_bytes ts ++ a :: b :: more)).
Proof.
  intros p before row col ixfe value flags chn cce ts a b more HV K B U.
  pose proof (formula_length row col ixfe flags chn cce value (tokens_bytes ts ++ a :: b :: more) HV) as L.
  pose proof (formula_rest row col ixfe flags chn cce value (tokens_bytes ts ++ a :: b :: more) HV) as H.
  set (d := formula_data row col ixfe value flags chn cce (tokens_bytes ts ++ a :: b :: more)) in *.
  apply C101_exact; [lia|]. unfold ParseRecord, record_body, biff8. change (1536 =? 1536) with true. change (6 =? 6) with true. cbv iota.
  rewrite (formula_unknown p before d ts a b more) by (assumption || lia). reflexivity.
Qed.
(** PtgAttrChoose moves reading back by its own size. *)
Lemma offsets_read d max n : forall i w, here d i w -> lenN w = 2 * N.of_nat n -> i + lenN w <= max -> max <= lenN d -> max < 2 ^ 31 -> offsets d max n i = Ok tt.
Proof.
  induction n as [|n IH]; intros i w H L B1 B2 B3; [reflexivity|]. cbn [offsets].
  destruct (us_any d max B2 B3 i) as (v & E); [lia|]. rewrite E. cbn [bind]. rewrite u32_small by lia.
  rewrite <- (takeN_dropN 2 w) in H. apply here_app in H. destruct H as [_ H]. rewrite lenN_takeN, N.min_l in H by lia.
  apply (IH (i + 2) (dropN 2 w) H); try assumption; rewrite lenN_dropN; lia.
Qed.
Lemma choose_token p d off n w : lenN d < 2 ^ 31 -> n < 2 ^ 16 -> here d off (n2b 0x19 :: n2b 0x04 :: to_le 2 n ++ w) -> lenN w = 2 * n ->
  token p d (lenN d) off = Ok (Text (B "PtgAttrChoose"), subw 32 0 (4 + 2 * n)).
Proof.
  intros B HN H LW. pose proof (here_len _ _ _ H) as L. rewrite !lenN_cons, lenN_app, lenN_to_le, LW in L. change (N.of_nat 2) with 2 in L.
  apply here_cons in H. destruct H as [H0 H]. apply here_cons in H. destruct H as [H1 H].
  apply here_app in H. destruct H as [H2 H]. rewrite lenN_to_le in H. change (N.of_nat 2) with 2 in H. replace (off + 1 + 1) with (off + 2) in * by lia.
  replace (off + 2 + 2) with (off + 4) in H by lia.
  start H0. choose. rewrite (u32_small (off + 1)) by lia. rewrite (here_rd _ _ _ H1). cbn [bind]. choose. unfold attr_choose, first.
  rewrite (here_rd _ _ _ H0). cbn [bind]. rewrite (u32_small (off + 1)) by lia. rewrite (here_rd _ _ _ H1). cbn [bind].
  rewrite (us_here d (lenN d) (N.le_refl _) B _ _ H2 HN) by lia. cbn [bind]. rewrite (u32_small (off + 4)) by lia.
  rewrite (offsets_read d (lenN d) (N.to_nat n) (off + 4) w H) by lia. reflexivity.
Qed.
Lemma back a b : b <= a -> a < 2 ^ 31 -> b < 2 ^ 31 -> u32 (a + subw 32 0 b) = a - b.
Proof. intros H A C. unfold u32, subw. change (2 ^ 32) with 4294967296. change (2 ^ 31) with 2147483648 in *. lia. Qed.
Lemma items_go p d max : max <= lenN d -> max < 2 ^ 31 -> forall l off, here d off (items_bytes l) -> Forall item_ok l -> off + lenN (items_bytes l) <= max ->
  goes p d max (List.length l) off (off + lenN (items_bytes l)).
Proof.
  intros HM HB. induction l as [|t l IH]; intros off H K L; [cbn; rewrite N.add_0_r; constructor|].
  inversion K as [|? ? K1 K2]; subst. unfold items_bytes in *. cbn [map List.concat List.length] in *. fold (items_bytes l) in *.
  apply here_app in H. destruct H as [H1 H2]. rewrite lenN_app in *. pose proof (item_length t K1) as T.
  assert (R : exists x, token p d max off = Ok (x, lenN (item_bytes t))).
  { destruct t as [t|w s]; cbn [item_bytes item_ok] in *.
    - destruct (read_token p d max HM HB off t) as (x & E & _); [split; [exact H1|split; [exact K1|lia]]|]. eauto.
    - exists (Text s). apply take; try assumption. lia. }
  destruct R as (x & E). apply goes_step with (t := x) (n := lenN (item_bytes t)); [lia|exact E|].
  rewrite u32_small by lia. rewrite N.add_assoc. apply IH; [exact H2|exact K2|lia].
Qed.
Lemma C101_choose : forall p before row col ixfe value flags chn cce l1 l2 n w more, lenN value = 8 -> Forall item_ok l1 -> Forall item_ok l2 ->
  n < 2 ^ 16 -> lenN w = 2 * n -> lenN (items_bytes l2) = 4 + 2 * n ->
  lenN (items_bytes l1 ++ items_bytes l2 ++ n2b 0x19 :: n2b 0x04 :: to_le 2 n ++ w ++ more) < 2 ^ 31 - 22 ->
  never_ends p before (formula_data row col ixfe value flags chn cce
    (items_bytes l1 ++ items_bytes l2 ++ n2b 0x19 :: n2b 0x04 :: to_le 2 n ++ w ++ more)).
Proof.
  intros p before row col ixfe value flags chn cce l1 l2 n w more HV K1 K2 HN LW L2 HL. set (rest := items_bytes l1 ++ _) in *.
  pose proof (formula_length row col ixfe flags chn cce value rest HV) as L.
  pose proof (formula_rest row col ixfe flags chn cce value rest HV) as H.
  set (d := formula_data row col ixfe value flags chn cce rest) in *.
  unfold rest in H. apply here_app in H. destruct H as [H1 H]. apply here_app in H. destruct H as [H2 H].
  change (n2b 25 :: n2b 4 :: to_le 2 n ++ w ++ more) with ((n2b 25 :: n2b 4 :: []) ++ to_le 2 n ++ w ++ more) in H.
  rewrite (app_assoc (to_le 2 n)), app_assoc in H. apply here_app in H. destruct H as [H _].
  pose proof (here_len _ _ _ H) as LH. rewrite !lenN_app, lenN_to_le, LW in LH. change (lenN [n2b 25; n2b 4]) with 2 in LH. change (N.of_nat 2) with 2 in LH.
  set (i := 22 + lenN (items_bytes l1)) in *. set (j := i + lenN (items_bytes l2)) in *.
  assert (G1 : goes p d (lenN d) (List.length l1) 22 i) by (apply items_go; [lia|lia|exact H1|exact K1|lia]).
  assert (G2 : goes p d (lenN d) (List.length l2) i j) by (apply items_go; [lia|lia|exact H2|exact K2|lia]).
  assert (G3 : goes p d (lenN d) 1 j i).
  { apply goes_step with (t := Text (B "PtgAttrChoose")) (n := subw 32 0 (4 + 2 * n)); [lia|apply (choose_token p d j n w); [lia|exact HN|exact H|exact LW]|].
    rewrite back by lia. replace (j - (4 + 2 * n)) with i by lia. constructor. }
  pose proof (goes_app _ _ _ _ _ _ _ _ G2 G3) as C.
  assert (F : forall k, rgce p d (lenN d) k 22 = Fuel).
  { intros k. destruct (cycle p d (lenN d) (List.length l2 + 1) i ltac:(lia) C k) as (z & Gz).
    pose proof (goes_app _ _ _ _ _ _ _ _ G1 Gz) as G. replace (List.length l1 + k)%nat with (k + List.length l1)%nat in G by lia.
    apply goes_split in G. destruct G as (y & G & _). apply (goes_fuel _ _ _ _ _ _ G). }
  split; [|exact F]. destruct (formula_head p before d) as (fs & HF); [lia|lia|]. rewrite F in HF. cbn [bind] in HF.
  unfold ParseRecord, record_body, biff8. change (1536 =? 1536) with true. change (6 =? 6) with true. cbv iota. rewrite HF. reflexivity.
Qed.
(** =CHOOSE(A1,1,2), cells and numbers as Excel writes them *)
Definition choose_formula : bytes :=
  example_formula 33
    ([x44; x00; x00; x00; xc0] ++ [x19; x04; x02; x00; x06; x00; x0d; x00; x14; x00] ++
     [x1e; x01; x00] ++ [x19; x08; x0a; x00] ++ [x1e; x02; x00] ++ [x19; x08; x03; x00] ++ [x42; x03; x64; x00]).
Lemma C101_choose_legal : forall p before, lenN choose_formula = 22 + 33 /\ never_ends p before choose_formula.
Proof.
  intros p before. split; [reflexivity|]. apply C101_exact; [reflexivity|]. vm_compute. reflexivity.
Qed.
Lemma C101_stream : forall p what, exists S, Forall record_ok [(0x809, bof8 5); (0x06, choose_formula); (0x0A, [])] /\ S = one_book 0x06 choose_formula /\ Detailer p what S = Fuel.
Proof.
  intros p what. eexists. split; [repeat constructor|]. split; [reflexivity|]. vm_compute. reflexivity.
Qed.
Lemma C101_ex : (forall t d j a b, In (t, d) (seen book) -> t = 0x06 \/ t = 0x18 -> occurs_at [a; b] d j -> moves_on (b2n a) (b2n b)) /\
  unknown 0x19 0x80 /\ (exists x, Detailer linux64 said_text book = Ok x).
Proof.
  split; [|split].
  - assert (Q : forall d, forallb (fun k => match nthN d k, nthN d (k + 1) with
        | Some a, Some b => negb ((b2n a =? 0x18) || (b2n a =? 0x19)) | _, _ => true end) (map N.of_nat (seq 0 (List.length d))) = true ->
        forall j a b, occurs_at [a; b] d j -> moves_on (b2n a) (b2n b)).
    { intros d H j a b (u & v & -> & L). rewrite forallb_forall in H.
      specialize (H j). assert (I : In j (map N.of_nat (seq 0 (List.length (u ++ [a; b] ++ v))))).
      { apply in_map_iff. exists (N.to_nat j). split; [lia|]. apply in_seq. rewrite !app_length. cbn [List.length]. unfold lenN in L. lia. }
      specialize (H I). rewrite (nthN_app2 u _ j), (nthN_app2 u _ (j + 1)) in H by lia. replace (j - lenN u) with 0 in H by lia. replace (j + 1 - lenN u) with 1 in H by lia.
      cbn [app] in H. change (nthN (a :: b :: v) 0) with (Some a) in H. change (nthN (a :: b :: v) 1) with (Some b) in H. cbv iota in H.
      apply Bool.negb_true_iff, Bool.orb_false_iff in H. destruct H as [H1 H2]. apply N.eqb_neq in H1. apply N.eqb_neq in H2. split; intros X; contradiction. }
    assert (A : forallb (fun r => negb ((fst r =? 0x06) || (fst r =? 0x18)) || forallb (fun k => match nthN (snd r) k, nthN (snd r) (k + 1) with
        | Some a, Some b => negb ((b2n a =? 0x18) || (b2n a =? 0x19)) | _, _ => true end) (map N.of_nat (seq 0 (List.length (snd r))))) (seen book) = true)
      by (vm_compute; reflexivity).
    intros t d j a b I T. apply (Q d). pose proof (proj1 (forallb_forall _ _) A (t, d) I) as X. cbn [fst snd] in X.
    destruct T as [-> | ->]; exact X.
  - right. split; [reflexivity|]. unfold known19. cbn [In]. intros H. repeat destruct H as [H|H]; try discriminate H. exact H.
  - destruct (Detailer linux64 said_text book) as [x|e| |] eqn:E; [exists x; reflexivity|exfalso..];
      assert (O : match Detailer linux64 said_text book with Ok _ => true | _ => false end = true) by (vm_compute; reflexivity); rewrite E in O; discriminate O.
Qed.
